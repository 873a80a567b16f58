(** A lost PUBCOMP is never made up for. *)
From Verif Require Import Base StateModel StateSpec StateHarness SerModel WireSpec SerHarness CoreModel CoreHarness ConcModel ConcHarness Machine MachSpec MachProofs MachProofs5 MachFacts MachFacts2 MachFinal NetProofs NetFinal InSpec InProofs InProofs2 InProofs3 InProofs4 InFinal.

Section Stuck.
Variables (id : Z) (m : publish_msg).
(** the server waits for a PUBCOMP, of which nothing is on its way, and the client has no record *)
Definition dead (se : session) (j : job) (N : inet) : Prop :=
  flying (i_srv N) id = Some (m, true) /\ owes id j = [] /\ ups id (i_up N) = [] /\ lookup (StateSpec.recvd se) id = None.
Lemma dead_w se j N N' : wstep N N' -> dead se j N -> dead se j N'.
Proof.
  intros S (A1 & A2 & A3 & A4). destruct S; unfold dead in *; cbn [i_up i_srv] in *.
  - assert (Hu : ups id u = []) by (cbn [ups flat_map] in A3; apply app_eq_nil in A3; apply A3). assert (Hp : up1 id p = []) by (cbn [ups flat_map] in A3; apply app_eq_nil in A3; apply A3). split; [|auto]. destruct H; auto.
    + rewrite flying_finish. destruct (id =? id0) eqn:E; auto. replace id0 with id in * by lia. congruence.
    + rewrite flying_release, A1. destruct (id =? id0); reflexivity.
    + rewrite flying_finish. destruct (id =? id0) eqn:E; auto. exfalso. cbn in Hp. replace (id0 =? id) with true in Hp by lia. discriminate.
  - split; auto. split; auto. split; auto. apply sub_empty. rewrite <- A3. apply ups_sub.
  - auto.
  - split; auto. unfold flying in *. cbn [w_fly]. rewrite find_snoc, A1. reflexivity.
  - auto.
  - auto.
Qed.
Lemma dead_ws se j N N' : wsteps N N' -> dead se j N -> dead se j N'.
Proof. induction 1; auto. intro K. eapply dead_w; eauto. Qed.
(** a token that is no acknowledgement for [id] *)
Lemma dead_k se j N x N' : (forall k, carries x = Some (KAck k id) -> k = Pubrel) -> kstep N x N' -> dead se j N -> dead se j N'.
Proof.
  intros Hx S (A1 & A2 & A3 & A4). unfold dead in *. destruct S; cbn [i_up i_srv] in *; auto.
  - split; auto. split; auto. split; auto. rewrite ups_app, A3. reflexivity.
  - split; auto. split; auto. split; auto. destruct c; auto. rewrite ups_app, A3. cbn [ups flat_map app]. rewrite app_nil_r. destruct p; auto. cbn [up1]. destruct (id0 =? id) eqn:E; [|destruct k; auto]. replace id0 with id in * by lia. rewrite (Hx k eq_refl). reflexivity.
Qed.
Lemma dead_run se j l : (forall x k, In x l -> carries x = Some (KAck k id) -> k = Pubrel) -> forall N N', wrun N l N' -> dead se j N -> dead se j N'.
Proof.
  induction l as [|x l IH]; intros Hx N N' R K; inversion R; subst; [eapply dead_ws; eauto|]. eapply IH; [|eassumption|]; [intros; eapply Hx; eauto; now right|]. eapply dead_k; [|eassumption|eapply dead_ws; eauto]. intros. eapply Hx; eauto. now left.
Qed.
Lemma look_note se k i : lookup (StateSpec.recvd se) id = None -> lookup (StateSpec.recvd (snd (spec_step se (Acked i k OpSend)))) id = None.
Proof.
  intro H. cbn [spec_step]. destruct (i =? 0); auto. destruct (concerns_sent k OpSend).
  - destruct (lookup (sent se) i); auto. destruct (apply_action _ _ _) as [[a b] c]. exact H.
  - destruct (lookup (StateSpec.recvd se) i) as [f|] eqn:E; auto. destruct (receiver_table _ _ _ _) as [s|s| | |] eqn:T; cbn [apply_action snd StateSpec.recvd]; auto.
    + rewrite lookup_set, H. reflexivity.
    + rewrite (lookup_id _ _ _ E). rewrite lookup_app, lookup_drop, H. cbn [f_id]. destruct (id =? i) eqn:E2; [replace i with id in E by lia; congruence|]. replace (i =? id) with false by lia. reflexivity.
    + rewrite lookup_drop, H. destruct (id =? _); reflexivity.
Qed.
Lemma sends_ack p c ok l c' : sends p c ok l c' -> (forall k, p = KAck k id -> k = Pubrel) -> forall x k, In x l -> carries x = Some (KAck k id) -> k = Pubrel.
Proof. intros S H x k Hx E. destruct (sends_tok _ _ _ _ _ S) as (y & -> & Ey & _). destruct Hx as [<-|[]]. apply H. congruence. Qed.
Lemma dead_step rt cn l a l1 b N N' : (forall N0, wsteps N N0 -> Ok l (m_conn a) (m_ses a) (m_job a) N0) -> P5 l a -> shape (m_job a) -> mstep rt cn a l1 b -> wrun N l1 N' -> dead (m_ses a) (m_job a) N -> dead (m_ses b) (m_job b) N'.
Proof.
  intros HO (_ & H5) Hsh S R K.
  assert (HX : forall (l1' : list tok), (forall x k, In x l1' -> carries x = Some (KAck k id) -> k = Pubrel) -> l1' = l1 -> dead (m_ses a) (m_job a) N') by (intros l1' Hx ->; eapply dead_run; eauto).
  assert (Hne : forall e x k, In x [Did e] -> carries x = Some (KAck k id) -> k = Pubrel) by (intros e x k [<-|[]] E; discriminate).
  assert (Hno : forall x k, In x [] -> carries x = Some (KAck k id) -> k = Pubrel) by (intros x k []).
  assert (Hj : forall se' j' M, dead (m_ses a) (m_job a) M -> owes id j' = [] -> lookup (StateSpec.recvd se') id = None -> dead se' j' M) by (intros se' j' M (B1 & B2 & B3 & B4) B5 B6; unfold dead; auto).
  assert (Hl : lookup (StateSpec.recvd (m_ses a)) id = None) by apply K. assert (Ho : owes id (m_job a) = []) by apply K.
  destruct S; cbn [m_conn m_ses m_job m_next] in *.
  - eapply HX; [eapply sends_ack; eauto; discriminate|reflexivity].
  - apply Hj; [|exact Ho|].
    + eapply HX; [|reflexivity]. intros x k Hx E. apply in_app_iff in Hx. destruct Hx as [Hx|Hx].
      * unfold kept_copy in H2. destruct rt; [destruct H2 as (v & _ & ->)|destruct H2 as (_ & ->); contradiction]. eapply Hne; eauto.
      * destruct ok; [|destruct H3 as (_ & -> & _); contradiction]. eapply sends_ack; eauto. discriminate.
    + destruct ok1; unfold r; rewrite ?recvd_out; auto; try exact I.
  - eapply HX; [eapply sends_ack; eauto; discriminate|reflexivity].
  - eapply HX; [eapply sends_ack; eauto; discriminate|reflexivity].
  - eapply HX; [eapply sends_ack; eauto; discriminate|reflexivity].
  - eapply HX; [eapply sends_ack; eauto; discriminate|reflexivity].
  - eapply HX; [eapply Hne|reflexivity].
  - apply Hj; [eapply HX; [eapply Hno|reflexivity]|exact Ho|]. rewrite recvd_out; auto; exact I.
  - eapply HX; [eapply Hne|reflexivity].
  - apply Hj; auto. eapply HX; [eapply Hne|reflexivity].
  - apply Hj; auto. eapply HX; [eapply Hno|reflexivity].
  - eapply HX; [eapply Hne|reflexivity].
  - apply Hj; auto. eapply HX; [eapply Hne|reflexivity].
  - apply Hj; auto. eapply HX; [eapply Hno|reflexivity].
  - apply Hj; auto. eapply HX; [eapply Hno|reflexivity].
  - (* a publish: not with this identifier *)
    assert (Ne : pm_id m0 <> id /\ pm_id m0 <> 0).
    { destruct (HO N (ws_nil N)) as (gs & I0). pose proof (v_gs _ _ _ _ _ _ I0) as (x & -> & Hw). pose proof (v_ok _ _ _ _ _ _ I0) as Hok. apply Forall_inv in Hok. pose proof (got_pub _ _ _ _ Hw Hok H H1). subst x. destruct Hok as (Hok & _). specialize (proj1 (proj2 Hok) H1). unfold id_ok. intro Hi. split; [|lia]. intro Ei.
      pose proof (v_ph _ _ _ _ _ _ I0 id) as (_ & P). destruct K as (Kf & _). rewrite Kf in P. destruct P as (_ & _ & P & _). cbn [app dns filter about] in P. rewrite Ei, Z.eqb_refl in P. inversion P. discriminate. }
    assert (Kn : dead se (Got ty body) N') by (eapply HX; [eapply Hno|reflexivity]). apply Hj; auto.
    + cbn [owes]. rewrite up1_answer by auto. replace (pm_id m0 =? id) with false by lia. reflexivity.
    + pose proof (in_look se (pm_id m0) (pm_qos m0) (proj2 Ne) H1) as L. fold r in L. destruct (lookup (StateSpec.recvd se) (pm_id m0)); [unfold r in *; congruence|]. rewrite (L H2). replace (id =? pm_id m0) with false by lia. auto.
  - assert (Ne : pm_id m0 <> id).
    { destruct (HO N (ws_nil N)) as (gs & I0). pose proof (v_gs _ _ _ _ _ _ I0) as (x & -> & Hw). pose proof (v_ok _ _ _ _ _ _ I0) as Hok. apply Forall_inv in Hok. pose proof (got_pub _ _ _ _ Hw Hok H H0). subst x. intro Ei.
      pose proof (v_ph _ _ _ _ _ _ I0 id) as (_ & P). destruct K as (Kf & _). rewrite Kf in P. destruct P as (_ & _ & P & _). cbn [app dns filter about] in P. rewrite Ei, Z.eqb_refl in P. inversion P. discriminate. }
    apply Hj; auto; [eapply HX; [eapply Hno|reflexivity]|]. cbn [owes]. rewrite up1_answer by auto. replace (pm_id m0 =? id) with false by lia. reflexivity.
  - (* an acknowledgement *)
    assert (Kn : dead se (Got (ack_first (ack_of k)) (be16 id0)) N') by (eapply HX; [eapply Hno|reflexivity]). apply Hj; auto.
    + destruct (Z.eq_dec id0 id) as [->|Ne].
      * destruct k; try (destruct rt; reflexivity); try reflexivity. exfalso. unfold id_ok in H. destruct (rel_look se id ltac:(lia) H0) as (f & L & _). congruence.
      * assert (E : forall k', up1 id (KAck k' id0) = []) by (intro k'; cbn; replace (id0 =? id) with false by lia; destruct k'; reflexivity). destruct k; unfold told; try (destruct rt); cbn [owes reply_to]; auto.
    + assert (D : k = Pubrel \/ k <> Pubrel) by (destruct k; auto; right; discriminate). destruct D as [->|D]; [|unfold r; now rewrite acked_out]. unfold id_ok in H. destruct (rel_look se id0 ltac:(lia) H0) as (f & L1 & _ & L). fold r in L. rewrite L. destruct (id =? id0) eqn:E; auto. replace id0 with id in L1 by lia. congruence.
  - apply Hj; auto. eapply HX; [eapply Hno|reflexivity].
  - apply Hj; auto. eapply HX; [eapply Hno|reflexivity].
  - apply Hj; auto. eapply HX; [eapply Hno|reflexivity].
  - apply Hj; auto. eapply HX; [eapply Hne|reflexivity].
  - apply Hj; auto. eapply HX; [eapply Hne|reflexivity].
  - (* acknowledge *) cbn [owes] in Ho. apply Hj; auto.
    + eapply HX; [|reflexivity]. eapply sends_ack; eauto. intros k0 E. assert (E1 : k0 = k) by congruence. assert (E2 : id0 = id) by congruence. subst k0 id0. cbn in Ho. rewrite Z.eqb_refl in Ho. destruct k; try discriminate. reflexivity.
    + destruct ok; [reflexivity|apply give_owes].
  - apply Hj; auto; [|apply give_owes]. eapply HX; [eapply Hno|reflexivity].
  - apply Hj; [eapply HX; [eapply Hno|reflexivity]| |now apply look_note]. destruct H5; subst j; destruct (status_beq _ _); reflexivity.
  - apply Hj; auto; [|destruct ok; reflexivity]. eapply HX; [eapply sends_ack; eauto; discriminate|reflexivity].
  - apply Hj; auto. eapply HX; [eapply Hne|reflexivity].
  - apply Hj; auto. eapply HX; [eapply Hno|reflexivity].
  - eapply HX; [eapply Hne|reflexivity].
  - eapply HX; [eapply Hne|reflexivity].
  - apply Hj; auto. eapply HX; [eapply Hno|reflexivity].
  - apply Hj; auto. eapply HX; [|reflexivity]. intros x k Hx E. destruct rt; [|contradiction]. apply in_map_iff in Hx. destruct Hx as (i0 & <- & _). discriminate.
  - apply Hj; auto. eapply HX; [eapply Hno|reflexivity].
  - apply Hj; auto. eapply HX; [eapply Hno|reflexivity].
  - apply Hj; auto. eapply HX; [eapply Hno|reflexivity].
  - apply Hj; auto; [|destruct r; reflexivity]. eapply HX; [eapply Hne|reflexivity].
  - apply Hj; auto; [|destruct ok; reflexivity]. eapply HX; [eapply sends_ack; eauto; discriminate|reflexivity].
  - apply Hj; auto. eapply HX; [eapply Hno|reflexivity].
Qed.

(** for ever *)
Definition P13 (N0 : inet) (l0 l : list tok) (a : mstate) : Prop :=
  P12 l a /\ P1 l a /\ P5 l a /\ shape (m_job a) /\ exists l1, l = l0 ++ l1 /\ forall N, wrun N0 l1 N -> dead (m_ses a) (m_job a) N.
End Stuck.
Lemma onward_wrun N0 k N : Onward N0 k N -> wrun N0 k N.
Proof. induction 1; [constructor; constructor|eapply wrun_snoc; eauto|eapply wrun_net; eauto]. Qed.
Lemma wrun_split l1 : forall l2 N N', wrun N (l1 ++ l2) N' -> exists N1, wrun N l1 N1 /\ wrun N1 l2 N'.
Proof.
  induction l1 as [|x l1 IH]; intros l2 N N' R; [exists N; split; [constructor; constructor|exact R]|].
  destruct (wrun_cons _ _ _ _ R) as (N1 & N2 & R1 & R2 & R3). destruct (IH _ _ _ R3) as (N3 & R4 & R5). exists N3. split; [eapply wr_tok; eauto|auto].
Qed.
Lemma linked_wrun l : forall k N N', Linked k N -> wrun N l N' -> Linked (k ++ l) N'.
Proof.
  assert (K : forall k N N', Linked k N -> wsteps N N' -> Linked k N') by (intros k N N' H S; revert H; induction S as [|A N1 C S IH S2]; intro H; [exact H|exact (linked_net _ _ _ (IH H) S2)]).
  induction l as [|x l IH]; intros k N N' H R; inversion R; subst; [rewrite app_nil_r; eauto|]. replace (k ++ x :: l) with ((k ++ [x]) ++ l) by now rewrite <- app_assoc. eapply IH; [|eassumption]. eapply linked_client; [eapply K; [exact H|eassumption]|eassumption].
Qed.
Lemma dead_forever rt cn n m0 id m k a N : Run rt cn (mkM NotConnected (fresh_session n m0) 1 Idle) k a -> Linked k N -> dead id m (m_ses a) (m_job a) N ->
  forall k' b k1 k2 N', Run rt cn a k' b -> k' = k1 ++ k2 -> Onward N k1 N' -> flying (i_srv N') id = Some (m, true).
Proof.
  intros R HN HD k' b k1 k2 N' R' E HO. destruct (run_prefix _ _ _ _ _ R' _ _ E) as (l & p & c & -> & R1 & F). apply onward_wrun in HO. destruct (wrun_split _ _ _ _ HO) as (N1 & W1 & W2). apply aside_wrun in W2; auto.
  assert (K : P13 id m N k (k ++ l) c).
  { apply (run_keeps rt cn (P13 id m N k)) with (a := a); auto.
    - intros l0 a0 l1 b0 (A1 & A2 & A3 & A4 & l2 & -> & A5) S. pose proof (proj1 A2) as Hk. split; [eapply P12_keeps; eauto|]. split; [eapply P1_keeps; eauto|]. split; [eapply P5_keeps; eauto|]. split; [eapply shape_keeps; eauto|].
      exists (l2 ++ l1). split; [now rewrite app_assoc|]. intros M HM. destruct (wrun_split _ _ _ _ HM) as (M1 & HM1 & HM2). eapply dead_step; [|exact A3|exact A4|exact S|exact HM2|auto].
      intros M2 HM3. eapply Ok_nets; [exact HM3|]. apply A1. eapply linked_wrun; eauto.
    - assert (G : P1 k a /\ P5 k a /\ shape (m_job a)).
      { set (P := fun l a => P1 l a /\ P5 l a /\ shape (m_job a)). change (P ([] ++ k) a). apply (run_keeps rt cn P) with (a := mkM NotConnected (fresh_session n m0) 1 Idle); auto.
        - intros l0 a0 l1 b0 (A2 & A3 & A4) S. pose proof (proj1 A2) as Hk. split; [eapply P1_keeps; eauto|]. split; [eapply P5_keeps; eauto|eapply shape_keeps; eauto].
        - split; [split; [|split; [apply each_nil|exact I]]|split; [split; [apply each_nil|exact I]|exact I]]. split; [split; constructor|]. split; [unfold id_ok; cbn; lia|exact I]. }
      destruct G as (G1 & G2 & G3). split; [eapply in_facts; eauto|]. split; auto. split; auto. split; auto. exists []. split; [now rewrite app_nil_r|]. intros M HM. inversion HM; subst. eapply dead_ws; eauto. }
  destruct K as (_ & _ & _ & _ & l1 & E1 & K). apply app_inv_head in E1. subst l1. specialize (K _ W1). assert (K2 := dead_ws id m _ _ _ _ W2 K). apply K2.
Qed.
