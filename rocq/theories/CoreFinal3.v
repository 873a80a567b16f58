(** What holds beside the findings. *)
From Verif Require Import Base StateModel StateSpec StateHarness StateProofs StateProofs2 SerModel WireSpec SerHarness SerProofs SerProofs4
  CoreModel CoreSpec CoreHarness CoreProofs CoreProofs2 CoreProofs3 CoreProofs7 CoreProofs8 CoreProofs9 CoreProofs10 CoreProofs16
  CoreProofs19 CoreProofs20 CoreProofs21 CoreProofs22 CoreProofs23 CoreFinal2.

Section Final3.
Variable G : cfg.
Variables n m : nat.

(** ** Room in the buffer *)
Lemma acked_complete v id k op : fst (fst (spec_step v (Acked id k op))) <> NeedMoreBytes.
Proof.
  cbn [spec_step]. destruct (id =? 0); [discriminate|]. destruct (concerns_sent k op).
  - destruct (lookup _ id) as [f|]; [|discriminate]. destruct (sender_table _ _ _ _); discriminate.
  - destruct (lookup _ id) as [f|]; [|discriminate]. destruct (receiver_table _ _ _ _); discriminate.
Qed.
Lemma replied_complete k id s res s' t : replied n m k id s res s' t -> res <> NeedMoreBytes.
Proof.
  intros [(_ & -> & _)|(_ & _ & _ & _ & _ & [(_ & -> & _)|(_ & _ & -> & _)])]; [destruct (x_status (s_ctx s)); discriminate|discriminate|apply acked_complete].
Qed.
Lemma handled_complete mk ty body s res s' t : packet_handled G n m mk ty body s res s' t -> res <> NeedMoreBytes.
Proof.
  intros []; try discriminate.
  - destruct H0; try discriminate; eapply replied_complete; eauto.
  - destruct H0; try discriminate; [apply acked_complete|]. match goal with K : match reply_to _ with _ => _ end |- _ => destruct (reply_to k); [eapply replied_complete; exact K|destruct K as (-> & _); discriminate] end.
Qed.
Lemma incomplete_room B r : Incomplete B r -> 5 <= B -> zlen r < B.
Proof.
  intros (_ & more & h & ty & body & Hm & Hh & E & Hf) HB. apply (f_equal zlen) in E. rewrite !zlen_app in E.
  assert (0 < zlen more) by (destruct more; [congruence|unfold zlen; cbn [length]; lia]).
  pose proof (header_len _ _ _ Hh) as Hl. destruct (Z_le_gt_dec (zlen h) (zlen r)) as [L|L]; [specialize (Hf L)|]; lia.
Qed.
Lemma loop_room mk s s' t : Begun G n m s -> run_call G (if mk : bool then CProcess else CReceive) s = Ret NeedMoreBytes s' t ->
  items t = [] /\ Incomplete (zlen (x_buf (s_ctx s'))) (pend (s_ctx s')) /\
  (5 <= zlen (x_buf (s_ctx s')) -> zlen (pend (s_ctx s')) < zlen (x_buf (s_ctx s'))).
Proof.
  intros HB H. apply (call_loop G n m) in H; auto. 
  remember NeedMoreBytes as st eqn:Es. destruct H as [s1 H1 H2 H3 H4|bs s1 k s2 t2 res s' t3 H1 H1' H2 H3 H4 H5 H6]; [discriminate|]. subst res.
  assert (Kk : k <> NeedMoreBytes /\ send_only t2).
  { destruct (mk && _); [|destruct H5 as (-> & _ & ->); split; [discriminate|reflexivity]]. pose proof (kept_recs _ _ _ _ _ H5) as (_ & Q). split; [|exact Q].
    destruct H5 as (now & s4 & _ & H5). destruct (x_waiting (s_ctx s1)); [destruct H5 as (-> & _); destruct (_ <? _); discriminate|].
    destruct (ping_due _ _ _); [|destruct H5 as (-> & _); discriminate].
    destruct H5 as [(_ & -> & _)|(_ & _ & _ & _ & _ & _ & [(_ & -> & _)|(_ & _ & -> & _)])]; try discriminate. destruct (x_status (s_ctx s4)); discriminate. }
  destruct Kk as (Kk & Ks). destruct H6 as [(_ & K & _)|(_ & H6)]; [congruence|].
  remember NeedMoreBytes as st eqn:Es. 
  destruct H6 as [E|E|E|h part ty rem s3 err s' t A1 A2 A3 A4 A5 A6 A7 A8 A9 A10|h ty body rest r s3 s' t A1 A2 A3 A4 A5 A6 A7]; try discriminate.
  - split.
    + unfold items. cbn [flat_map app]. rewrite flat_map_app. cbn [flat_map]. rewrite app_nil_r. clear - Ks. unfold send_only in Ks.
      induction t2 as [|x u IH]; [reflexivity|]. cbn [forallb] in Ks. apply andb_true_iff in Ks. destruct Ks as (K1 & K2). destruct x; try discriminate; exact (IH K2).
    + split; [exact E|]. now apply incomplete_room.
  - destruct (negb err && (zlen (part ++ ins t) =? rem)); discriminate.
  - exfalso. apply handled_complete in A4. congruence.
Qed.

(** ** Acknowledgements that are waited for *)
Lemma awaited_ack mk s st s' t ty id f k : Begun G n m s -> run_call G (if mk : bool then CProcess else CReceive) s = Ret st s' t ->
  In (EPkt ty (be16 id)) t -> 1 <= id <= 65535 -> lookup (outgoing s) id = Some f ->
  (k = Puback /\ f_st f = PubAckPending \/ k = Pubrec /\ f_st f = PubRecPending \/ k = Pubcomp /\ f_st f = PubCompPending) -> ty = ack_first (ack_of k) ->
  (reply_to k = None -> st = Success) /\ In (ECb ty (be16 id) id None Success) t.
Proof.
  intros HB H Hi Hid Hf Hk Ht. pose proof HB as HB0. apply begun_inv in HB. destruct HB as (_ & HR & _).
  apply (call_loop G n m) in H; auto. eapply loop_packet in H; eauto. destruct H as (u & v & s2 & s3 & -> & _ & H & Er & _).
  assert (Eo : session_of n m s2 = session_of n m s) by (unfold session_of, outgoing, incoming; rewrite Er; destruct mk; reflexivity).
  assert (Ha : ack_handled G n m k (be16 id) s2 st s3 v).
  { inversion H as [r s1 t1 A B|k0 r s1 t1 A B| | | | | | | |]; subst; try (destruct k; discriminate).
    - assert (k0 = k) by (destruct k0, k; discriminate || reflexivity). now subst.
    - exfalso. match goal with Q : ~ In _ _ |- _ => apply Q end. destruct k; cbn; auto 10. }
  assert (Hok : ok_sent f).
  { destruct (reach_view _ _ _ HR) as [[_ _ _ _ H5] _]. cbn [view sent] in H5. rewrite Forall_forall in H5. apply H5. eapply lookup_In; exact Hf. }
  unfold ok_sent in Hok. destruct Hok as (_ & Hok).
  assert (Hs : fst (fst (spec_step (session_of n m s) (Acked id k OpReceive))) = Success).
  { cbn [spec_step session_of]. replace (id =? 0) with false by lia. destruct Hk as [(-> & E)|[(-> & E)|(-> & E)]]; cbn [concerns_sent session_of sent];
      rewrite Hf, E in *; destruct (f_qos f); try contradiction; reflexivity. }
  inversion Ha as [Hb|id' s1 A1 A2 r A3 A4 A5|id' s0 s1 t1 res s4 t2 A1 A2 r A3 A4 A5 A6 A7]; subst.
  - exfalso. eapply Hb; eauto.
  - exfalso. apply be16_inj in A2; [|lia|lia]. subst id'. apply A3. unfold r. rewrite Eo. exact Hs.
  - apply be16_inj in A2; [|lia|lia]. subst id'. split.
    + intro E. rewrite E in A7. apply A7.
    + apply in_or_app. right. right. apply in_or_app. right. apply in_or_app. left. destruct A6 as (t' & -> & _). now left.
Qed.
End Final3.
