(** What MQTT_Connect does to the receive buffer, with other threads about. *)
From Verif Require Import Base StateModel StateSpec StateHarness StateProofs StateProofs2 SerModel WireSpec SerHarness SerProofs SerProofs2 SerProofs3 SerProofs4 SerProofs5
  CoreModel CoreHarness CoreSpec CoreProofs CoreProofs2 CoreProofs3 CoreProofs4 CoreProofs5 CoreProofs6 CoreProofs7 CoreProofs8 CoreProofs9 CoreProofs10 CoreProofs11 CoreProofs12 CoreProofs13 CoreProofs14 CoreProofs15 CoreProofs16 CoreProofs17 CoreProofs18 CoreProofs19 CoreProofs20 CoreProofs21 CoreProofs22 ConcModel ConcHarness ConcProofs ConcProofs2 ConcProofs3 ConcProofs4 ConcProofs5 ConcProofs6 ConcProofs7 FreshProofs.

Local Notation "'let^' x ':=' m 'in' k" := (cbind m (fun x => k))
  (at level 200, x pattern, m at level 100, k at level 200).
Local Notation "m ;^ k" := (cbind m (fun _ => k)) (at level 190, right associativity).

(** nothing is read, and the buffer stays *)
Definition qrx (s s' : st) (t : list ev) : Prop :=
  x_buf (s_ctx s') = x_buf (s_ctx s) /\ x_index (s_ctx s') = x_index (s_ctx s) /\ items t = [] /\ ins t = [] /\
  (x_status (s_ctx s') = NotConnected <-> x_status (s_ctx s) = NotConnected).
Lemma qrx_refl s : qrx s s []. Proof. repeat split; auto. Qed.
Lemma qrx_trans s1 s2 s3 t1 t2 : qrx s1 s2 t1 -> qrx s2 s3 t2 -> qrx s1 s3 (t1 ++ t2).
Proof.
  intros (A1 & A2 & A3 & A4 & A5) (B1 & B2 & B3 & B4 & B5). unfold qrx. rewrite items_app, ins_app, A3, A4, B3, B4.
  split; [congruence|]. split; [congruence|]. split; auto. split; auto. tauto.
Qed.
Lemma broke_qrx s : qrx s (mkSt (transport_broke (s_ctx s)) (s_env s)) [].
Proof.
  unfold qrx. cbn [s_ctx]. destruct (broke_fields (s_ctx s)) as (-> & -> & _). rewrite broke_status. repeat split; auto; destruct (x_status (s_ctx s)); congruence.
Qed.
Lemma atom_qrx s s' t : atom false s s' t -> qrx s s' t.
Proof.
  intro A. pose proof (path_same_rx _ _ _ (path_one _ _ _ _ A)) as ((E1 & E2 & _) & N). apply no_rx_items in N. destruct N as (N1 & N2).
  assert (K : x_status (s_ctx s') = NotConnected <-> x_status (s_ctx s) = NotConnected); [|unfold qrx; tauto].
  destruct A as [s s' t Hc He Hs|s o r c H1 H2|s bs ok s' t H1 H2|s ty data id pub result|s ok s' t ? Hn K]; try discriminate; try tauto.
  - destruct Hc as (F1 & F2 & F3 & F4 & F5). rewrite ?F1, ?F2, ?F3, ?F4, ?F5. tauto.
  - rewrite H1. split; [|discriminate]. intro K. apply sentb_index in H2. destruct H2 as (_ & H2). rewrite H1 in H2. auto.
Qed.
Lemma path_qrx s s' t : Path false s s' t -> qrx s s' t.
Proof. intro P. remember false as d in P. induction P as [|s1 s2 s3 t1 t2 A H IH]; subst; [apply qrx_refl|]. eapply qrx_trans; [apply atom_qrx; eauto|auto]. Qed.
Lemma others_qrx s s' t : others s s' t -> qrx s s' t.
Proof. intros (P & _). now apply path_qrx. Qed.
(** the operations, MQTT_Disconnect too *)
Lemma path_drx s s' t : Path true s s' t -> items t = [] /\ ins t = [] /\
  (x_status (s_ctx s) = NotConnected -> x_status (s_ctx s') = NotConnected) /\ (x_status (s_ctx s') <> NotConnected -> qrx s s' t).
Proof.
  induction 1 as [s|s1 s2 s3 t1 t2 A H IH]; [repeat split; auto|]. destruct IH as (I1 & I2 & I3 & I4).
  assert (K : qrx s1 s2 t1 \/ items t1 = [] /\ ins t1 = [] /\ x_status (s_ctx s1) <> NotConnected /\ x_status (s_ctx s2) = NotConnected).
  { destruct A as [s s' t Hc He Hs|s o r c H1 H2|s bs ok s' t H1 H2|s ty data id pub result|s ok s' t ? Hn K].
    1: left; apply atom_qrx; now apply a_local.
    1: left; apply atom_qrx; eapply a_engine; eauto.
    1: left; apply atom_qrx; eapply a_send; eauto.
    1: left; apply atom_qrx; apply a_callback.
    right. pose proof (sentb_same_rx _ _ _ _ _ K) as (_ & N). apply no_rx_items in N. destruct N. split; auto. split; auto. split; auto.
    apply sentb_hush in K. destruct K as (_ & ->). cbn. destruct (serrs t); reflexivity. }
  destruct K as [Q|(Q1 & Q2 & Q3 & Q4)].
  - pose proof Q as (_ & _ & Q3 & Q4 & Q5). rewrite items_app, ins_app, Q3, Q4, I1, I2. split; auto. split; auto. split; [intro; apply I3; tauto|]. intro N. eapply qrx_trans; eauto.
  - rewrite items_app, ins_app, Q1, Q2, I1, I2. split; auto. split; auto. split; [contradiction|]. intro N. exfalso. auto.
Qed.
Section BP4.
Variable G : cfg.
Variables n m : nat.
Hypothesis HM : 4294967296 <= g_M G.
Hypothesis HV : 3 <= g_maxvec G.
Notation good := (good n m).
Notation csteps := (csteps G).
Lemma resumed_qrx s s' t : x_status (s_ctx s) <> NotConnected -> resumed G s s' t -> qrx s s' t.
Proof. intros Hn (A1 & A2 & A3 & A4 & A5 & (A6 & A7 & _) & A8). unfold qrx. repeat split; auto; contradiction. Qed.
Lemma broke_qrx_steps s : good s -> steps (c_broke G) s (fun _ s' t => qrx s s' t).
Proof.
  intro Hg. apply (steps_locked G n m HM HV); auto. intros s1 t1 Ho Hg1. split; [safe1|]. intros [] s2 t2 H. apply modc_inv in H.
  destruct H as (-> & ->). eapply qrx_trans; [apply others_qrx; exact Ho|apply broke_qrx].
Qed.
(** the part under the mutex *)
Definition rrx (s s' : st) (t : list ev) : Prop :=
  items t = [] /\ (x_status (s_ctx s) <> NotConnected -> qrx s s' t) /\
  (x_status (s_ctx s) = NotConnected -> (x_index (s_ctx s) = 0 -> x_index (s_ctx s') = 0) /\ (x_status (s_ctx s') <> NotConnected -> length (ins t) = 4%nat)).
Lemma rrx_before s s1 s2 t1 t2 : qrx s s1 t1 -> rrx s1 s2 t2 -> rrx s s2 (t1 ++ t2).
Proof.
  intros Q (B1 & B2 & B3). pose proof Q as (A1 & A2 & A3 & A4 & A5). unfold rrx. rewrite items_app, ins_app, A3, A4, B1. split; auto. split.
  - intro N. eapply qrx_trans; [exact Q|]. apply B2. tauto.
  - intro N. destruct (B3 (proj2 A5 N)) as (B4 & B5). split; [rewrite <- A2; exact B4|exact B5].
Qed.
Lemma rrx_after s s1 s2 t1 t2 : rrx s s1 t1 -> qrx s1 s2 t2 -> rrx s s2 (t1 ++ t2).
Proof.
  intros (B1 & B2 & B3) Q. pose proof Q as (A1 & A2 & A3 & A4 & A5). unfold rrx. rewrite items_app, ins_app, A3, A4, B1, !app_nil_r. split; auto. split.
  - intro N. eapply qrx_trans; [|exact Q]. auto.
  - intro N. destruct (B3 N) as (B4 & B5). split; [rewrite A2; exact B4|]. intro K. apply B5. tauto.
Qed.
Lemma qrx_rrx s s' t : qrx s s' t -> rrx s s' t.
Proof. intros Q. pose proof Q as (A1 & A2 & A3 & A4 & A5). split; auto. split; auto. intro N. split; [congruence|]. intro K. tauto. Qed.
Lemma recv_items t : recv_only t -> items t = [].
Proof. unfold recv_only. induction t as [|e t IH]; auto. cbn [forallb]. rewrite andb_true_iff. intros (H1 & H2). destruct e; try discriminate; cbn; auto. Qed.
Lemma region_rrx ci will rl tmo s st sp s' t : rx_all G s -> good s -> region G ci will rl tmo s = Ret (st, sp) s' t -> rrx s s' t.
Proof.
  intros Hr Hg H. apply (region_spec G n m) in H; [|apply Hg|apply Hr].
  destruct H as [[(Es & -> & -> & -> & ->)|(Es & -> & -> & -> & ->)]|(Es & H)]; [apply qrx_rrx, qrx_refl|apply qrx_rrx, qrx_refl|].
  destruct H as [(-> & -> & -> & ->)|(vs & ok & s1 & t1 & Hv & H1 & H)]; [apply qrx_rrx, qrx_refl|].
  assert (Q1 : qrx s s1 t1).
  { pose proof (sentb_same_rx _ _ _ _ _ H1) as ((E1 & E2 & _) & N). apply no_rx_items in N. destruct N as (N1 & N2). unfold qrx.
    destruct (sentb_nc _ _ _ _ _ Es H1) as (lt & Ec). repeat split; auto; intros _; rewrite Ec; exact Es. }
  destruct H as [(-> & -> & -> & -> & ->)|(-> & st2 & s2 & t2 & Hw & H)]; [now apply qrx_rrx|].
  destruct Hw as (bs & b & W1 & W2 & W3 & W4 & W5 & W6 & W7 & K). pose proof Q1 as (A1 & A2 & A3 & A4 & A5).
  assert (I2 : x_index (s_ctx s2) = x_index (s_ctx s)) by (rewrite W7; exact A2).
  assert (S2 : x_status (s_ctx s2) = NotConnected) by (rewrite W7; cbn; tauto).
  pose proof (recv_items _ W2) as T2.
  assert (L : st2 = Success -> length bs = 4%nat).
  { intros ->. destruct K as [(_ & p & -> & _)|[(? & _)|[?|[?| ?]]]]; try discriminate. reflexivity. }
  assert (C : forall l, items (map EClear l) = [] /\ ins (map EClear l) = []) by (intro l; induction l; auto).
  destruct H as [(Hne & -> & -> & ->)|[(-> & -> & -> & -> & ->)|(-> & -> & -> & -> & ->)]]; unfold rrx; rewrite !items_app, !ins_app, A3, A4, T2, W1.
  - split; auto. split; [contradiction|]. intros _. split; [congruence|contradiction].
  - destruct (C (pubq (tracked (outRecs (x_recs (s_ctx s)))))) as (C1 & C2). split; [now destruct (x_retr (s_ctx s))|]. split; [contradiction|]. intros _. split; [reflexivity|]. intros _.
    rewrite !app_length, L by auto. destruct (x_retr (s_ctx s)); rewrite ?C2; reflexivity.
  - split; auto. split; [contradiction|]. intros _. split; [cbn; congruence|]. intros _. rewrite app_length, L by auto. reflexivity.
Qed.
Lemma connect_rx ci will tmo s : con_sound ci will -> rx_all G s -> good s -> csteps (c_connect G ci will tmo) s (fun _ s' t => rrx s s' t).
Proof.
  intros Hs Hr Hg. unfold c_connect. destruct (getConnectPacketSize ci will) as (st0, size) eqn:Ez.
  set (R1 := fun (a : status * option bool) s1 t1 => CPath G true s s1 t1 /\ rrx s s1 t1 /\ (fst a = Success -> x_status (s_ctx s1) = Connected)).
  assert (HF : forall r, r <> Success -> csteps (cret (r, @None bool)) s R1).
  { intros r Hr0. apply csteps_ret. split; [constructor|]. split; [apply qrx_rrx, qrx_refl|]. contradiction. }
  apply (csteps_bind G _ _ _ _ R1).
  { destruct st0; try (apply HF; discriminate). destruct size as [(rl, total)|].
    - apply (csteps_locked G n m HM HV _ (region G ci will rl tmo)); auto; [intro; apply sim_region|].
      intros s1 t1 Ho Hg1. pose proof (proj1 Ho) as X. pose proof (cpath_path G true _ _ _ X) as P1. apply path_same_rx in X. destruct X as (X & _).
      pose proof (same_rx_all G _ _ X Hr) as Hr1. split; [eapply region_safe; eauto; apply Hg1|].
      intros (r, sp) s2 t2 E. destruct (region_greeted G n m _ _ _ _ _ _ _ _ _ Hr1 Hg1 E) as (P & _ & A3 & _). split; [eapply cpath_app; eauto|]. split.
      + eapply rrx_before; [apply others_qrx; exact Ho|]. eapply region_rrx; eauto.
      + cbn [fst]. intro Er. apply (A3 Er).
    - exfalso. unfold getConnectPacketSize in Ez. repeat match type of Ez with (if ?b then _ else _) = _ => destruct b end; discriminate. }
  intros (r, sp) s1 t1 (P1 & H1 & C1). cbn [fst] in C1. pose proof (cpath_good _ _ _ _ _ _ _ P1 Hg) as Hg1.
  apply (csteps_bind G _ _ _ _ (fun _ s2 t2 => CPath G true s1 s2 t2 /\ qrx s1 s2 t2)).
  { destruct (status_beq r Success && _) eqn:Eb; [|apply csteps_ret; split; [constructor|apply qrx_refl]].
    apply andb_true_iff in Eb. destruct Eb as (Er & _). apply status_beq_eq in Er. specialize (C1 Er).
    apply csteps_steps. eapply steps_weaken; [apply (resume_steps G n m HM HV); auto; congruence|]. cbv beta. intros r2 s2 t2 R. split; [apply R|]. apply resumed_qrx; auto; congruence. }
  intros r2 s2 t2 (P2 & Q2). pose proof (cpath_good _ _ _ _ _ _ _ P2 Hg1) as Hg2.
  apply (csteps_bind G _ _ _ _ (fun _ s3 t3 => qrx s2 s3 t3)).
  { destruct (status_beq r2 Success || _ || _); [apply csteps_ret, qrx_refl|]. apply csteps_steps. now apply broke_qrx_steps. }
  intros [] s3 t3 Q3. apply csteps_ret. rewrite app_nil_r. eapply rrx_after; [exact H1|]. eapply qrx_trans; eauto.
Qed.

(** the length of the buffer *)
Lemma atom_len d s s' t : atom d s s' t -> zlen (x_buf (s_ctx s')) = zlen (x_buf (s_ctx s)).
Proof.
  intro A. destruct A as [s s' t Hc He Hs|s o r c H1 H2|s bs ok s' t H1 H2|s ty data id pub result|s ok s' t ? Hn K]; auto.
  - destruct Hc as (F1 & F2 & F3 & F4 & F5). rewrite ?F1, ?F2, ?F3, ?F4, ?F5. reflexivity.
  - apply sentb_same_rx in H2. destruct H2 as ((-> & _) & _). reflexivity.
  - apply sentb_same_rx in K. destruct K as ((-> & _) & _). cbn. unfold zlen. now rewrite ?repeat_length.
Qed.
Lemma cpath_len k s s' t : CPath G k s s' t -> zlen (x_buf (s_ctx s')) = zlen (x_buf (s_ctx s)).
Proof.
  induction 1 as [|s1 s2 s3 t1 t2 A H IH]; auto. rewrite IH. clear - A.
  destruct A as [s s' t A|s s' t b i A1 A2 A3 A4 A5|s e A|s|s bs ok s' t A1 A2 A3|s ka A1 A2|s bs ok s' t A1 A2 A3]; auto.
  - eapply atom_len; eauto.
  - rewrite A5. exact A3.
  - cbn [s_ctx]. destruct (broke_fields (s_ctx s)) as (-> & _). reflexivity.
  - apply sentb_same_rx in A3. destruct A3 as ((-> & _) & _). reflexivity.
  - apply sentb_same_rx in A3. destruct A3 as ((-> & _) & _). reflexivity.
Qed.
End BP4.
