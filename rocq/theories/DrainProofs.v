(** A server that acknowledges completes the publishes in flight. *)
From Verif Require Import Base StateModel StateSpec StateHarness StateProofs StateProofs2 SerModel WireSpec SerHarness CoreModel CoreHarness CoreProofs CoreProofs2 CoreProofs16 CoreFinal CoreFinal2
  DrainSpec.

Lemma within_tl {T} (x : T) a b : Within (x :: a) b -> Within a b.
Proof. intro H. remember (x :: a) as l eqn:E. revert x a E. induction H; intros y c E; [discriminate|assert (a = c) by congruence; subst; now constructor|constructor; eauto]. Qed.
Lemma within_other {T} (x : T) a b : Within a (x :: b) -> hd_error a <> Some x -> Within a b.
Proof. intros H N. inversion H; subst; auto; [constructor|]. exfalso. now apply N. Qed.
Lemma within_none {T} (a : list T) : Within a [] -> a = [].
Proof. intro H. now inversion H. Qed.
Lemma be16_same a b : 1 <= a <= 65535 -> 1 <= b <= 65535 -> be16 a = be16 b -> a = b.
Proof. unfold be16. intros Ha Hb E. assert (a / 256 = b / 256) by congruence. assert (a mod 256 = b mod 256) by congruence. pose proof (Z.div_mod a 256). pose proof (Z.div_mod b 256). lia. Qed.

(** a packet and the publishes in flight before and after it *)
Definition effect (p : Z * list Z) (o o' : list flight) : Prop :=
  (exists id f, 1 <= id <= 65535 /\ lookup o id = Some f /\ snd p = be16 id /\
     (fst p = 64 /\ f_st f = PubAckPending /\ o' = spec_drop o id \/
      fst p = 80 /\ f_st f = PubRecPending /\ o' = spec_drop o id ++ [F id (f_qos f) PubCompPending] \/
      fst p = 112 /\ f_st f = PubCompPending /\ o' = spec_drop o id)) \/
  o' = o /\ (forall f id, 1 <= id <= 65535 -> lookup o id = Some f -> hd_error (owed f) <> Some p).
Lemma lookup_self l f : NoDup (ids l) -> In f l -> lookup l (f_id f) = Some f.
Proof.
  unfold lookup, ids. induction l as [|g l IH]; [contradiction|]. cbn [map find]. intros N [->|H]; [now rewrite Z.eqb_refl|]. inversion N; subst.
  destruct (f_id g =? f_id f) eqn:E; [|auto]. apply Z.eqb_eq in E. exfalso. apply H2. rewrite E. now apply in_map.
Qed.
Lemma owed_head f p : hd_error (owed f) = Some p -> snd p = be16 (f_id f).
Proof. unfold owed. destruct (f_st f); cbn; try discriminate; intro H; assert (E : p = p) by auto; injection H as <-; reflexivity. Qed.
Lemma effect_owed p o o' h : NoDup (ids o) -> effect p o o' -> (forall f, In f o -> 1 <= f_id f <= 65535 /\ owed f <> [] /\ Within (owed f) (p :: h)) ->
  forall f, In f o' -> 1 <= f_id f <= 65535 /\ owed f <> [] /\ Within (owed f) h.
Proof.
  intros N E H. destruct E as [(id & f0 & Hid & L & Hs & E)|(-> & Hn)].
  - assert (I0 : In f0 o /\ f_id f0 = id) by (unfold lookup in L; apply find_some in L; split; [apply L|apply Z.eqb_eq; apply L]). destruct I0 as (I0 & I1).
    assert (D : forall f, In f (spec_drop o id) -> 1 <= f_id f <= 65535 /\ owed f <> [] /\ Within (owed f) h).
    { intros f Hf. unfold spec_drop in Hf. apply filter_In in Hf. destruct Hf as (Hf & Hne). destruct (H f Hf) as (A & B & C). split; auto. split; auto. eapply within_other; [exact C|].
      intro X. apply owed_head in X. assert (f_id f = id) by (apply be16_same; auto; congruence). destruct (f_id f =? id) eqn:K; [discriminate|lia]. }
    destruct E as [(_ & _ & ->)|[(E1 & E2 & ->)|(_ & _ & ->)]]; auto.
    intros f Hf. apply in_app_or in Hf. destruct Hf as [Hf|[<-|[]]]; auto. cbn [f_id]. split; auto. split; [discriminate|]. cbn [owed f_st f_id].
    destruct (H f0 I0) as (_ & _ & C). unfold owed in C. rewrite E2, I1 in C. inversion C; subst; auto. now apply within_tl in H2.
  - intros f Hf. destruct (H f Hf) as (A & B & C). split; auto. split; auto. eapply within_other; [exact C|]. eapply Hn; [exact A|]. now apply lookup_self.
Qed.

Section Step.
Variables (G : cfg) (n m : nat).
Lemma quiet_call e s s' t : Forall (fun o => o = []) (e_cbs (s_env s)) -> app_call G e s s' t ->
  s' = popped s /\ t = [e].
Proof.
  intros Hq (t' & -> & H). assert (N : next_ops s = []) by (unfold next_ops; destruct (e_cbs (s_env s)) as [|o l]; auto; inversion Hq; auto). rewrite N in H. cbn [run_ops] in H.
  apply ret_inv in H. destruct H as (_ & -> & ->). auto.
Qed.
Lemma not_ok c : c <> Connected -> ~ went_well (not_connected_result c).
Proof. destruct c; intros H [K|K]; try discriminate; now apply H. Qed.
Lemma acked_not_more se id k op : fst (fst (spec_step se (Acked id k op))) <> Success -> ~ went_well (fst (fst (spec_step se (Acked id k op)))).
Proof.
  intros H [K|K]; [auto|]. revert K. cbn [spec_step]. destruct (id =? 0); [discriminate|]. destruct (concerns_sent k op).
  - destruct (lookup _ _); [|discriminate]. destruct (sender_table _ _ _ _); discriminate.
  - destruct (lookup _ _); [|discriminate]. destruct (receiver_table _ _ _ _); discriminate.
Qed.
(** a reply that went out *)
Lemma reply_ok k id s res s' t : replied n m k id s res s' t -> went_well res -> e_cbs (s_env s') = e_cbs (s_env s) /\
  fst (fst (spec_step (session_of n m s) (Acked id k OpSend))) = Success /\ session_of n m s' = snd (spec_step (session_of n m s) (Acked id k OpSend)) /\ handled t = [].
Proof.
  intros [(Hc & -> & _)|(Hc & So & _ & (a & b & c & d & ts & sn & ->) & _ & K)] W; [exfalso; eapply not_ok; eauto|].
  assert (Hh : handled t = []) by (clear - So; unfold send_only in So; induction t as [|e t IH]; auto; cbn in *; apply andb_true_iff in So; destruct So as (A & B); destruct e; try discriminate; auto).
  destruct K as [(_ & -> & _)|(_ & _ & K1 & K2)]; [destruct W; discriminate|]. split; [reflexivity|]. split; [|split; auto].
  destruct (fst (fst (spec_step (session_of n m s) (Acked id k OpSend)))) eqn:E; auto; exfalso; eapply (acked_not_more (session_of n m s) id k OpSend); rewrite E; congruence || (rewrite K1 in W; exact W).
Qed.
Lemma owed_types f p : hd_error (owed f) = Some p -> fst p = 64 \/ fst p = 80 \/ fst p = 112.
Proof. unfold owed. destruct (f_st f); cbn; try discriminate; intro H; injection H as <-; auto. Qed.
Lemma effect_none ty body o : ty <> 64 -> ty <> 80 -> ty <> 112 -> effect (ty, body) o o.
Proof. intros H1 H2 H3. right. split; auto. intros f id _ _ X. apply owed_types in X. cbn in X. lia. Qed.
Definition still_quiet (s : st) : Prop := Forall (fun o => o = []) (e_cbs (s_env s)).
Lemma popped_quiet s : still_quiet s -> still_quiet (popped s).
Proof. unfold still_quiet, popped. cbn. intro H. destruct (e_cbs (s_env s)); auto. inversion H; auto. Qed.
Lemma popped_session s : session_of n m (popped s) = session_of n m s. Proof. reflexivity. Qed.
Lemma send_recv_side se id k : concerns_sent k OpSend = false -> sent (snd (spec_step se (Acked id k OpSend))) = sent se.
Proof.
  intro E. cbn [spec_step]. destruct (id =? 0); [reflexivity|]. rewrite E. destruct (lookup (recvd se) id) as [f|]; [|reflexivity]. destruct (receiver_table _ _ _ _); reflexivity.
Qed.
Lemma session_out s s' : session_of n m s = session_of n m s' -> outgoing s = outgoing s'.
Proof. unfold session_of. intro H. congruence. Qed.
Lemma same_quiet s s' : e_cbs (s_env s') = e_cbs (s_env s) -> still_quiet s -> still_quiet s'.
Proof. unfold still_quiet. now intros ->. Qed.
Lemma lookup_drop_none l id : lookup (spec_drop l id) id = None.
Proof. unfold lookup, spec_drop. induction l as [|f l IH]; auto. cbn. destruct (f_id f =? id) eqn:E; cbn; auto. now rewrite E. Qed.
Lemma lookup_app_none l f id : lookup l id = None -> f_id f = id -> lookup (l ++ [f]) id = Some f.
Proof. unfold lookup. induction l as [|g l IH]; cbn; intros H E; [rewrite E, Z.eqb_refl; reflexivity|]. destruct (f_id g =? id); [discriminate|auto]. Qed.
Lemma set_back l id q a b : spec_set (spec_drop l id ++ [F id q a]) id b = spec_drop l id ++ [F id q b].
Proof.
  unfold spec_set. rewrite map_app. cbn [map f_id f_qos]. rewrite Z.eqb_refl. f_equal. unfold spec_drop. induction l as [|f l IH]; auto. cbn. destruct (f_id f =? id) eqn:E; cbn; auto. now rewrite E, IH.
Qed.
Lemma packet_effect mk ty body s r s3 t : still_quiet s -> packet_handled G n m mk ty body s r s3 t -> went_well r ->
  still_quiet s3 /\ handled t = [] /\ effect (ty, body) (outgoing s) (outgoing s3).
Proof.
  intros Q H W. destruct H as [res s' t Hty H|k res s' t Hty H|r id s' t Hty _ _ H| |id s' t Hty _ _ H| |Hmk Hty _|s' t _ Hty _ H| |]; try (destruct W; discriminate).
  - assert (N : ty <> 64 /\ ty <> 80 /\ ty <> 112) by (split; [|split]; intros ->; vm_compute in Hty; discriminate). destruct N as (N1 & N2 & N3).
    destruct H as [|msg d s' t _ _ _ H| |msg s0 res s' t _ _ _ _ (rr & ->) Se H|msg d s0 s1 t1 res s' t _ _ _ _ _ _ (rr & ->) O1 _ Hc H|]; try (destruct W; discriminate).
    + apply quiet_call in H; auto. destruct H as (-> & ->). split; [now apply popped_quiet|]. split; [reflexivity|]. now apply effect_none.
    + apply reply_ok in H; auto. destruct H as (A & _ & B & C). split; [eapply same_quiet; [exact A|exact Q]|]. split; auto.
      assert (E : outgoing s' = outgoing s).
      { change (outgoing s') with (sent (session_of n m s')). rewrite B, send_recv_side, Se by (destruct (pm_qos msg); reflexivity). reflexivity. }
      rewrite E. now apply effect_none.
    + apply quiet_call in Hc; auto. destruct Hc as (-> & ->). apply reply_ok in H; auto. destruct H as (A & _ & B & C).
      split; [eapply same_quiet; [exact A|]; now apply popped_quiet|]. split; [exact C|].
      assert (E : outgoing s' = outgoing s).
      { change (outgoing s') with (sent (session_of n m s')). rewrite B, send_recv_side by (destruct (pm_qos msg); reflexivity). exact O1. }
      rewrite E. now apply effect_none.
  - destruct H as [|id s' Hid Hb r Hr _ _|id s0 s1 t1 res s' t Hid Hb r Hr (rr & E0) Se Hc H]; [destruct W; discriminate|exfalso; eapply acked_not_more; eauto|].
    subst s0. apply quiet_call in Hc; auto. destruct Hc as (-> & ->).
    assert (Z0 : (id =? 0) = false) by lia.
    assert (Hh : forall u v, handled (u ++ v) = handled u ++ handled v) by (intros; unfold handled; apply flat_map_app).
    assert (Hcl : handled (match k with Puback | Pubrec => if x_retr (s_ctx s) then [EClear id] else [] | _ => [] end) = []) by (destruct k; auto; destruct (x_retr _); auto).
    assert (Q2 : still_quiet (popped (mkSt (set_recs (s_ctx s) rr) (s_env s)))) by (now apply popped_quiet).
    assert (Out : sent (snd r) = outgoing (popped (mkSt (set_recs (s_ctx s) rr) (s_env s)))).
    { rewrite <- Se. reflexivity. }
    destruct k; cbn [reply_to] in H.
    + destruct H as (-> & -> & ->). split; [exact Q2|]. split; [rewrite !Hh, Hcl; reflexivity|]. rewrite <- Out. subst r. cbn [spec_step concerns_sent] in *. rewrite Z0 in *.
      change (sent (session_of n m s)) with (outgoing s) in *. destruct (lookup (outgoing s) id) as [f|] eqn:L; [|discriminate]. left. exists id, f. split; auto. split; auto. split; auto.
      left. split; [exact Hty|]. destruct (f_qos f), (f_st f); try discriminate; split; auto; cbn; unfold lookup in L; apply find_some in L; destruct L as (_ & L); apply Z.eqb_eq in L; now rewrite L.
    + apply reply_ok in H; auto. destruct H as (A & S2 & B & C). split; [eapply same_quiet; [exact A|exact Q2]|]. split; [rewrite !Hh, Hcl, C; reflexivity|].
      change (outgoing s') with (sent (session_of n m s')). rewrite B, popped_session, Se. rewrite popped_session, Se in S2. clear B Out. subst r. cbn [spec_step concerns_sent] in *. rewrite Z0 in *.
      change (sent (session_of n m s)) with (outgoing s) in *. destruct (lookup (outgoing s) id) as [f|] eqn:L; [|discriminate]. left. exists id, f. split; auto. split; auto. split; auto.
      right. left. split; [exact Hty|]. assert (I : f_id f = id) by (unfold lookup in L; apply find_some in L; destruct L as (_ & L); now apply Z.eqb_eq in L).
      destruct (f_qos f) eqn:Eq, (f_st f); try discriminate; split; auto; cbn [sender_table apply_action snd fst sent cap_out cap_in recvd] in *; rewrite I in *;
        rewrite (lookup_app_none _ (F id (f_qos f) PubRelSend) id (lookup_drop_none _ _) eq_refl), Eq in *; cbn [f_qos f_st f_id sender_table apply_action snd sent]; apply set_back.
    + apply reply_ok in H; auto. destruct H as (A & _ & B & C). split; [eapply same_quiet; [exact A|exact Q2]|]. split; [rewrite !Hh, Hcl, C; reflexivity|].
      assert (E : outgoing s' = outgoing s).
      { change (outgoing s') with (sent (session_of n m s')). rewrite B, send_recv_side by reflexivity. rewrite popped_session, Se. subst r. cbn [spec_step concerns_sent]. rewrite Z0.
        destruct (lookup (recvd (session_of n m s)) id) as [f|]; [|reflexivity]. destruct (receiver_table _ _ _ _); reflexivity. }
      rewrite E. cbn in Hty. subst ty. apply effect_none; lia.
    + destruct H as (-> & -> & ->). split; [exact Q2|]. split; [rewrite !Hh, Hcl; reflexivity|]. rewrite <- Out. subst r. cbn [spec_step concerns_sent] in *. rewrite Z0 in *.
      change (sent (session_of n m s)) with (outgoing s) in *. destruct (lookup (outgoing s) id) as [f|] eqn:L; [|discriminate]. left. exists id, f. split; auto. split; auto. split; auto.
      right. right. split; [exact Hty|]. destruct (f_qos f), (f_st f); try discriminate; split; auto; cbn; unfold lookup in L; apply find_some in L; destruct L as (_ & L); apply Z.eqb_eq in L; now rewrite L.
  - apply quiet_call in H; auto. destruct H as (-> & ->). split; [now apply popped_quiet|]. split; [reflexivity|]. subst ty. apply effect_none; lia.
  - apply quiet_call in H; auto. destruct H as (-> & ->). split; [now apply popped_quiet|]. split; [reflexivity|]. subst ty. apply effect_none; lia.
  - split; [exact Q|]. split; [reflexivity|]. subst ty. apply effect_none; lia.
  - apply quiet_call in H; auto. destruct H as (-> & ->). split; [now apply popped_quiet|]. split; [reflexivity|]. subst ty. apply effect_none; lia.
Qed.
(** one call of a loop *)
Definition same_out (s s' : st) : Prop := outgoing s' = outgoing s /\ e_cbs (s_env s') = e_cbs (s_env s).
Lemma rx_same s s' : only_rx s s' -> same_out s s'.
Proof. intros (b & i & inp & rv & ts & ->). split; reflexivity. Qed.
Lemma kept_same s k s' t : kept_alive G s k s' t -> k = Success -> same_out s s' /\ handled t = [].
Proof.
  intros (now & s1 & (x & l & _ & _ & ->) & H) ->. destruct (x_waiting _); [destruct H as (_ & -> & ->); repeat split|]. destruct (ping_due _ _ _); [|destruct H as (_ & -> & ->); repeat split].
  destruct H as [(Hc & E & _)|(_ & So & _ & (s2 & p & w & (a & b & c & d & ts & sn & ->) & ->) & _ & Er & _)].
  - exfalso. destruct (x_status _) eqn:Ec in *; try discriminate.
  - split; [split; [unfold outgoing; rewrite Er; reflexivity|reflexivity]|]. clear - So. unfold send_only in So. induction t as [|e t IH]; auto. cbn in *. apply andb_true_iff in So. destruct So as (A & B). destruct e; try discriminate; auto.
Qed.
Lemma loop_effect mk s r s' t : still_quiet s -> loop_handled G n m mk s r s' t -> went_well r ->
  still_quiet s' /\ (handled t = [] /\ outgoing s' = outgoing s \/ exists p, handled t = [p] /\ effect p (outgoing s) (outgoing s')).
Proof.
  intros Q H W. destruct H as [|bs s1 k s2 t2 res s' t3 Hrx _ _ _ _ Hk H]; [destruct W; discriminate|].
  destruct H as [(Hk1 & -> & -> & ->)|(-> & H)].
  { exfalso. destruct W as [W|W]; [auto|]. destruct (mk && _); [|destruct Hk as (Hk & _); congruence]. destruct Hk as (now & s3 & _ & Hk). rewrite W in Hk. destruct (x_waiting _).
    - destruct Hk as (Hk & _). destruct (_ <? _); discriminate.
    - destruct (ping_due _ _ _); [|destruct Hk as (Hk & _); discriminate]. destruct Hk as [(Hc & E & _)|(_ & _ & _ & _ & _ & _ & [(_ & E & _)|(_ & _ & E & _)])]; try discriminate. destruct (x_status (s_ctx s3)); discriminate. }
  apply rx_same in Hrx. assert (K : same_out s s2 /\ handled t2 = []).
  { destruct (mk && _); [apply kept_same in Hk; auto; destruct Hk as ((A & B) & C); destruct Hrx as (D & E); split; [split; congruence|auto]|destruct Hk as (_ & -> & ->); auto]. }
  destruct K as (Ks & Kh). assert (Q2 : still_quiet s2) by (eapply same_quiet; [apply Ks|exact Q]).
  assert (Hh : forall u v, handled (u ++ v) = handled u ++ handled v) by (intros; unfold handled; apply flat_map_app).
  change (handled (EIn bs :: t2 ++ t3)) with (handled (t2 ++ t3)). rewrite Hh, Kh. cbn [app]. rewrite <- (proj1 Ks).
  destruct H as [|_|_|h part ty rem s3 err s' t Hh1 Hp Hz Hro He _ _ Hrx2 -> _|h ty body rest r s3 s' t Hh1 Hp Hz Hph Hst _ _]; try (destruct W; discriminate).
  - split; auto.
  - split; auto.
  - apply rx_same in Hrx2. assert (B : same_out s2 (if err then broken s3 else s3)) by (destruct err; [destruct Hrx2; split; auto|auto]).
    split; [eapply same_quiet; [apply B|exact Q2]|]. left. split; [|apply B]. cbn [handled flat_map app]. clear - Hro. unfold recv_only in Hro. induction t as [|e t IH]; auto. cbn in *. apply andb_true_iff in Hro. destruct Hro as (A & B). destruct e; try discriminate; auto.
  - destruct (packet_effect _ _ _ _ _ _ _ Q2 Hph W) as (A & B & C).
    assert (D : same_out s3 s') by (destruct Hst as (b & i & Hst); destruct (status_beq r Success); [destruct Hst as (x & l & _ & ->)|rewrite Hst]; split; reflexivity).
    split; [eapply same_quiet; [apply D|exact A]|]. right. exists (ty, body). split; [cbn [handled flat_map app]; fold (handled t); now rewrite B|]. now rewrite (proj1 D).
Qed.
Lemma drained l : forall s rs s' t, Begun G n m s -> Forall loops l -> run_calls G l s = Ret rs s' t -> still_quiet s -> Forall went_well rs ->
  (forall f, In f (outgoing s) -> 1 <= f_id f <= 65535 /\ owed f <> [] /\ Within (owed f) (handled t)) -> outgoing s' = [].
Proof.
  induction l as [|c l IH]; intros s rs s' t HB Hl H Q W K; cbn [run_calls] in H.
  - apply ret_inv in H. destruct H as (_ & -> & ->). destruct (outgoing s) as [|f o]; auto. destruct (K f (or_introl eq_refl)) as (_ & A & B). apply within_none in B. contradiction.
  - apply bind_inv in H. destruct H as (r & s1 & t1 & t2 & H1 & H & ->). apply bind_inv in H. destruct H as (rs2 & s2 & t3 & t4 & H2 & H & ->). apply ret_inv in H. destruct H as (-> & -> & ->).
    rewrite app_nil_r in K. inversion Hl as [|? ? Lc Hl2]; subst. inversion W as [|? ? W1 W2]; subst.
    assert (Step : still_quiet s1 /\ (handled t1 = [] /\ outgoing s1 = outgoing s \/ exists p, handled t1 = [p] /\ effect p (outgoing s) (outgoing s1))).
    { destruct Lc as [-> | ->]; [apply (call_loop G n m true) in H1|apply (call_loop G n m false) in H1]; auto; apply loop_effect in H1; auto. }
    destruct Step as (Q1' & Step). apply (IH s1 rs2 s2 t3); auto; [eapply begun_call; eauto|].
    assert (Hh : handled (t1 ++ t3) = handled t1 ++ handled t3) by (unfold handled; apply flat_map_app). rewrite Hh in K.
    destruct Step as [(E1 & E2)|(p & E1 & E2)]; rewrite E1 in K; cbn [app] in K; [now rewrite E2|].
    eapply effect_owed; [|exact E2|exact K]. destruct (ids_unique _ _ _ (begun_reach G _ _ _ HB)) as (N & _). exact N.
Qed.
End Step.
