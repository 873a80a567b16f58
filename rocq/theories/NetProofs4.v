(** Publishes end to end: all histories. *)
From Verif Require Import Base StateModel StateSpec StateHarness SerModel WireSpec SerHarness SerProofs4 CoreModel CoreHarness Machine MachSpec MachProofs MachFacts MachFacts2 MachFinal NetSpec NetProofs NetProofs2 NetProofs3.

(** ** The network during a step *)
Inductive nsteps : net -> net -> Prop :=
| ns_nil N : nsteps N N
| ns_step N N1 N' : nsteps N N1 -> nstep N1 N' -> nsteps N N'.
Inductive nrun : net -> list tok -> net -> Prop :=
| nr_nil N N' : nsteps N N' -> nrun N [] N'
| nr_tok N N1 N2 x l N' : nsteps N N1 -> cstep N1 x N2 -> nrun N2 l N' -> nrun N (x :: l) N'.
Lemma nrun_net l : forall N N' N'', nrun N l N' -> nstep N' N'' -> nrun N l N''.
Proof. intros N N' N'' H S. induction H; [constructor; eapply ns_step; eauto|eapply nr_tok; eauto]. Qed.
Lemma nrun_snoc l : forall N N' x N'', nrun N l N' -> cstep N' x N'' -> nrun N (l ++ [x]) N''.
Proof. intros N N' x N'' H S. induction H; cbn; [eapply nr_tok; [eauto|eauto|constructor; constructor]|eapply nr_tok; eauto]. Qed.
Lemma joint_split k N' : Joint k N' -> forall l1 l2, k = l1 ++ l2 -> exists N, Joint l1 N /\ nrun N l2 N'.
Proof.
  induction 1 as [|k N x N' H IH S|k N N' H IH S]; intros l1 l2 E.
  - symmetry in E. apply app_eq_nil in E. destruct E; subst. exists net0. split; constructor. constructor.
  - destruct l2 as [|y l2 _] using rev_ind.
    + rewrite app_nil_r in E. subst l1. exists N'. split; [eapply joint_client; eauto|constructor; constructor].
    + rewrite app_assoc in E. apply app_inj_tail in E. destruct E as (E & ->). destruct (IH _ _ E) as (M & K1 & K2). exists M. split; auto. eapply nrun_snoc; eauto.
  - destruct (IH _ _ E) as (M & K1 & K2). exists M. split; auto. eapply nrun_net; eauto.
Qed.

Section Net.
Variable rt : bool.
Notation Inv := (Inv rt).
Notation mstep := (mstep rt false).
Lemma Inv_nets l c se j N N' : nsteps N N' -> Inv l c se j N -> Inv l c se j N'.
Proof. induction 1; auto. intro K. eapply Inv_net; eauto. Qed.
Lemma nrun_cons N x l N' : nrun N (x :: l) N' -> exists N1 N2, nsteps N N1 /\ cstep N1 x N2 /\ nrun N2 l N'.
Proof. intro R. inversion R; subst. eauto. Qed.
Lemma run_one l c se j x N N' c' se' j' : (forall N1 N2, cstep N1 x N2 -> Inv l c se j N1 -> Inv (l ++ [x]) c' se' j' N2) -> nrun N [x] N' -> Inv l c se j N -> Inv (l ++ [x]) c' se' j' N'.
Proof. intros H R K. inversion R; subst. inversion H6; subst. eapply Inv_nets; eauto. eapply H; eauto. eapply Inv_nets; eauto. Qed.
Lemma run_none l c se j N N' : nrun N [] N' -> Inv l c se j N -> Inv (l ++ []) c se j N'.
Proof. intros R K. inversion R; subst. rewrite app_nil_r. eapply Inv_nets; eauto. Qed.

Definition ok_tok (l : list tok) : Prop := one_session l /\ no_dups l /\ keeps_copies l.
Lemma ok_prefix l1 l2 : ok_tok (l1 ++ l2) -> ok_tok l1.
Proof.
  intros (A & B & C). split; [intros x m H; apply A; apply in_app_iff; auto|]. split; [intros x m H; apply B; apply in_app_iff; auto|].
  intros k1 id bs k2 E. apply (C k1 id bs (k2 ++ l2)). rewrite E, <- app_assoc. reflexivity.
Qed.
Definition conn_ok (c c' : cstatus) : Prop := c' <> NotConnected -> c <> NotConnected.
Lemma Inv_c l c c' se j N : conn_ok c c' -> match j with Wait _ _ => c' = c | _ => True end -> Inv l c se j N -> Inv l c' se j N.
Proof. intros Hc Hw H. destruct H as [A1 A2 A3 A4 A5 A6 A7 A8 A9 A10]. constructor; auto. destruct j; auto. now subst c'. Qed.
Lemma sends_ok p c ok l c' : sends p c ok l c' -> conn_ok c c' /\ (c = NotConnected -> c' = c).
Proof. destruct 1; split; try (now intro); try (intro; subst; reflexivity). unfold conn_ok. destruct c; cbn; congruence. Qed.
Lemma sends_Inv p c ok l1 c' l se j N N' : sends p c ok l1 c' -> (forall x N1 N2, carries x = Some p -> cstep N1 x N2 -> Inv l c se j N1 -> Inv (l ++ [x]) c se j N2) ->
  nrun N l1 N' -> Inv l c se j N -> Inv (l ++ l1) c' se j N'.
Proof.
  intros S H R K. destruct (sends_ok _ _ _ _ _ S) as (S1 & S2). destruct (sends_tok _ _ _ _ _ S) as (x & -> & E & _). eapply run_one; [|exact R|exact K]. intros N1 N2 C I1. specialize (H x N1 N2 E C I1).
  eapply Inv_c; [exact S1| |exact H]. pose proof (i_wait _ _ _ _ _ _ H) as W. destruct j; auto. apply S2. now destruct W.
Qed.
Lemma plain_kinds p l c se j x N1 N2 : plain_pkt p -> carries x = Some p -> cstep N1 x N2 -> Inv l c se j N1 -> Inv (l ++ [x]) c se j N2.
Proof. intros Hp E. now apply (Inv_send rt l c se j N1 x p). Qed.
Lemma ack_Inv k id l c se j x N1 N2 : (k = Pubrel -> halfw se id) -> carries x = Some (KAck k id) -> cstep N1 x N2 -> Inv l c se j N1 -> Inv (l ++ [x]) c se j N2.
Proof.
  intros Hk E. assert (D : k = Pubrel \/ k <> Pubrel) by (destruct k; auto; right; discriminate). destruct D as [->|D].
  - apply Inv_pubrel with (id := id); auto.
  - eapply plain_kinds; eauto. now apply plain_ack.
Qed.
Definition calm (j : job) : Prop := Djob j = [] /\ match j with Wait _ _ | Again _ _ => False | _ => True end.
Lemma calm_Inv l c se j j' N : calm j' -> J l se j' -> Inv l c se j N -> Inv l c se j' N.
Proof. intros (H1 & H2) H3 H. eapply Inv_job; eauto; [destruct j'; auto; contradiction|rewrite H1; apply sub_none|apply (i_open _ _ _ _ _ _ H)|destruct j'; auto; contradiction]. Qed.
Lemma noshow_calm j : noshow j -> calm j.
Proof. destruct j; cbn; try contradiction; intros; split; auto; exact I. Qed.
Lemma give_calm j : calm (give_up j).
Proof. destruct j; split; cbn; auto. Qed.
Lemma give_J l se j : J l se (give_up j).
Proof. destruct j; exact I. Qed.

Definition P9 (l : list tok) (a : mstate) : Prop := ok_tok l -> forall N, Joint l N -> Inv l (m_conn a) (m_ses a) (m_job a) N.
Lemma half_halfw se id : NoDup (ids (sent se)) -> In id (half_done (sent se)) -> halfw se id.
Proof. intros Hn H. apply half_in in H. destruct H as (f & H & <- & Hs). exists f. split; [now apply lookup_nodup|]. destruct Hs as [->| ->]; reflexivity. Qed.
Lemma unacked_openw se id : NoDup (ids (sent se)) -> In id (unacked (sent se)) -> openw se id.
Proof. intros Hn H. apply unacked_in in H. destruct H as (f & H & <- & Hs). exists f. split; [now apply lookup_nodup|]. destruct Hs as [->|[->| ->]]; reflexivity. Qed.
Lemma openw_ok se id : ses_ok se -> openw se id -> id_ok id.
Proof. intros (H & _) (f & E & _). apply lookup_in in E. destruct E as (E & <-). unfold ids_ok in H. rewrite Forall_forall in H. now apply H. Qed.
Lemma fetched l c se N id bs : Inv l c se (Fetch id) N -> J l se (Again id bs) -> ~ lost rt id l (Fetch id) -> Inv l c se (Again id bs) N.
Proof.
  intros [A1 A2 A3 A4 A5 A6 A7 A8 A9 A10] HJ Hl. constructor; auto. intros i Hi. eapply phase_lost; [|exact (A2 i Hi)]. intro K. destruct (Z.eq_dec i id) as [->|Ne]; [contradiction|]. destruct K as (K1 & K2 & _). split; [exact K1|]. split; [exact K2|]. auto.
Qed.
Lemma reserve_old se id q : ok_of (spec_step se (Reserve id q)) <> Success -> sent (snd (spec_step se (Reserve id q))) = sent se.
Proof.
  unfold ok_of. cbn [spec_step]. destruct (qos_beq q Q0); auto. destruct (id =? 0); auto. unfold spec_add. destruct (in_flight _ _); auto. destruct (_ <? _)%nat; cbn; auto. congruence.
Qed.
Lemma P9_keeps l a l1 b : P9 l a -> P1 l a -> P5 l a -> P8 rt l a -> mstep a l1 b -> P9 (l ++ l1) b.
Proof.
  intros HP H1 H5 (_ & HJ8) S Hok N' HJ. pose proof (HP (ok_prefix _ _ Hok)) as HI. destruct (joint_split _ _ HJ l l1 eq_refl) as (N & HN & R). specialize (HI N HN). clear HP HJ.
  destruct H1 as ((Hs & Hi & Hj) & _ & HJ1). destruct H5 as (_ & HJ5).
  destruct S; cbn [m_conn m_ses m_job m_next] in *.
  - (* publish, QoS 0 *) eapply sends_Inv; eauto. intros x N1 N2. apply plain_kinds. apply plain_publish. congruence.
  - (* publish *)
    destruct ok.
    + assert (Hd : pm_dup m = false) by (destruct (sends_tok _ _ _ _ _ H3) as (x & -> & E & _); destruct Hok as (_ & O & _); apply (O x m); auto; apply in_app_iff; right; apply in_app_iff; right; now left).
      assert (Hr : ok_of r = Success) by (destruct H1 as [H1|(_ & H1)]; [auto|congruence]). destruct (reserve_new _ _ _ H0 Hr) as (Hn & _).
      assert (K : exists N1, nrun N1 l1 N' /\ Inv (l ++ l0) Connected se j N1 /\ (rt = true -> exists v, last_copy (pm_id m) (l ++ l0) v true /\ concat v = publish_packet (with_dup m))).
      { unfold kept_copy in H2. assert (Er : rt = true \/ rt = false) by (destruct rt; auto). destruct Er as [Er|Er]; rewrite Er in H2.
        - destruct H2 as (v & Ev & ->). destruct (nrun_cons _ _ _ _ R) as (N1 & N2 & R1 & R2 & R3). exists N2. split; auto. split; [eapply Inv_store; eauto; eapply Inv_nets; eauto|]. intros _. exists v. split; auto. apply last_copy_new.
        - destruct H2 as (_ & ->). exists N. rewrite app_nil_r. split; auto. split; auto. congruence. }
      destruct K as (N1 & R1 & K1 & K2). rewrite app_assoc. destruct (sends_ok _ _ _ _ _ H3) as (S1 & S2). destruct (sends_tok _ _ _ _ _ H3) as (x & -> & E & D).
      eapply run_one; [|exact R1|exact K1]. intros N2 N3 C I1. pose proof (Inv_publish rt _ _ _ _ _ _ _ E H H0 Hr K2 C I1) as F1.
      assert (F2 : Inv ((l ++ l0) ++ [x]) c' (snd r) j N3) by (eapply Inv_c; [exact S1|destruct j; auto; pose proof (i_wait _ _ _ _ _ _ F1) as W; cbn in W; destruct W; discriminate|exact F1]).
      destruct ok1; [|exact F2]. eapply Inv_sim; [intro i0; apply published_sim|apply nodup_step; apply (i_nd _ _ _ _ _ _ F2)|exact F2].
    + destruct H3 as (-> & -> & ->). unfold kept_copy in H2. assert (Er : rt = true \/ rt = false) by (destruct rt; auto). destruct Er as [Er|Er]; rewrite Er in H2; [|destruct H2; discriminate]. destruct H2 as (v & _ & ->). rewrite app_nil_r in *. eapply run_one; [|exact R|exact HI]. intros N1 N2 C I1.
      destruct H1 as [Hr|(Hr & _)].
      * destruct (reserve_new _ _ _ H0 Hr) as (Hn & _). eapply Inv_unstored; eauto; [apply last_copy_new|]. eapply Inv_store; eauto.
      * assert (Eo : sent (snd r) = sent se) by (apply reserve_old; fold r; rewrite Hr; discriminate).
        apply (Inv_sim rt _ _ se); [intro i0; rewrite Eo; apply sim_refl|rewrite Eo; apply (i_nd _ _ _ _ _ _ HI)|]. eapply Inv_store; eauto.
  - eapply sends_Inv; eauto. intros x N1 N2. apply plain_kinds. now apply plain_other.
  - eapply sends_Inv; eauto. intros x N1 N2. apply plain_kinds. now apply plain_other.
  - eapply sends_Inv; eauto. intros x N1 N2. apply plain_kinds. now apply plain_other.
  - (* disconnect *) assert (K : Inv l NotConnected se Idle N) by (eapply Inv_c; [|exact I|exact HI]; intro; congruence).
    eapply sends_Inv; eauto. intros x N1 N2. apply plain_kinds. now apply plain_other.
  - eapply run_one; eauto. intros N1 N2. now apply Inv_did.
  - discriminate.
  - eapply run_one; eauto. intros N1 N2. apply (Inv_read rt l c se Idle).
  - eapply run_one; eauto. intros N1 N2 C K. eapply calm_Inv; [split; [reflexivity|exact I]|exact I|]. eapply Inv_did; eauto; exact I.
  - apply run_none with (N := N); auto. eapply (Inv_c l c); [destruct c; intro; cbn in *; congruence|exact I|]. eapply calm_Inv; [split; [reflexivity|exact I]|exact I|exact HI].
  - eapply run_one; eauto. intros N1 N2. now apply Inv_did.
  - eapply run_one; eauto. intros N1 N2. now apply Inv_packet.
  - apply run_none with (N := N); auto. eapply calm_Inv; [split; [reflexivity|exact I]|exact I|exact HI].
  - apply run_none with (N := N); auto. eapply calm_Inv; [split; [reflexivity|exact I]|exact I|exact HI].
  - (* a publish comes *) apply run_none with (N := N); auto. eapply calm_Inv; [split; [reflexivity|exact I]|destruct (pm_qos m); exact I|].
    eapply Inv_sim; [intro i0; apply published_sim|apply nodup_step; apply (i_nd _ _ _ _ _ _ HI)|exact HI].
  - apply run_none with (N := N); auto. eapply calm_Inv; [split; [reflexivity|exact I]|destruct (pm_qos m); exact I|exact HI].
  - (* an acknowledgement comes *) apply run_none with (N := N); auto. eapply Inv_acked; eauto.
    + cbn zeta. intro Hh. destruct k, rt; cbn [J told reply_to]; auto.
    + destruct k, rt; reflexivity.
    + destruct k, rt; exact I.
  - apply run_none with (N := N); auto. eapply calm_Inv; [split; [reflexivity|exact I]|exact I|exact HI].
  - apply run_none with (N := N); auto. eapply calm_Inv; [split; [reflexivity|exact I]|exact I|exact HI].
  - apply run_none with (N := N); auto. eapply calm_Inv; [split; [reflexivity|exact I]|exact I|exact HI].
  - (* clear *) eapply run_one; eauto. intros N1 N2 C K. destruct HJ5 as (e & j' & -> & _). eapply calm_Inv; [split; [reflexivity|exact I]| |eapply Inv_did; eauto; exact I].
    pose proof (i_job _ _ _ _ _ _ K). apply J_plain; auto. split; [discriminate|reflexivity].
  - (* show *) eapply run_one; eauto. intros N1 N2 C K. destruct HJ5 as (Hcb & _ & Hn). eapply calm_Inv; [now apply noshow_calm| |eapply Inv_did; [|eauto|eauto]; destruct e; try contradiction; exact I].
    pose proof (i_job _ _ _ _ _ _ K). apply J_plain; auto. split; [intros i0 v ok C0; destruct e; try contradiction; discriminate|reflexivity].
  - (* an acknowledgement is sent *)
    assert (Hk : k = Pubrel -> halfw se id) by (intros ->; pose proof (i_job _ _ _ _ _ _ HI) as K; cbn in K; apply K).
    assert (K : Inv (l ++ l0) c' se (Owe k id j) N') by (eapply sends_Inv; eauto; intros x N1 N2; now apply ack_Inv).
    destruct ok; [|eapply calm_Inv; [apply give_calm|apply give_J|exact K]].
    eapply calm_Inv; [split; [reflexivity|exact I]| |exact K]. pose proof (i_job _ _ _ _ _ _ K) as K2. destruct k; exact K2.
  - apply run_none with (N := N); auto. eapply calm_Inv; [apply give_calm|apply give_J|exact HI].
  - (* and noted *) apply run_none with (N := N); auto.
    assert (K : Inv l c (snd r) (Note k id j) N) by (eapply Inv_sim; [intro i0; apply acksent_sim|apply nodup_step; apply (i_nd _ _ _ _ _ _ HI)|exact HI]).
    destruct (status_beq (ok_of r) Success); [|eapply calm_Inv; [apply give_calm|apply give_J|exact K]].
    assert (Hc : calm j) by (destruct HJ5; subst j; split; auto; exact I). eapply calm_Inv; [exact Hc| |exact K]. pose proof (i_job _ _ _ _ _ _ K) as K2. destruct k; cbn in K2; try exact K2. apply K2.
  - (* connect *)
    assert (Hc : cm_clean m = false) by (destruct (sends_tok _ _ _ _ _ H0) as (x & -> & E & _); destruct Hok as (O & _); apply (O x m); auto; apply in_app_iff; right; now left).
    destruct (sends_tok _ _ _ _ _ H0) as (x & -> & E & D). eapply run_one; eauto. intros N1 N2 C K. pose proof (Inv_connect rt _ _ _ _ _ _ _ E Hc C K) as F1.
    destruct D as [(-> & -> & _)|[(-> & -> & _)|(-> & -> & _)]]; exact F1.
  - eapply run_one; eauto. intros N1 N2. apply (Inv_read rt l c se (Wait cl bs)).
  - apply run_none with (N := N); auto. eapply calm_Inv; [split; [reflexivity|exact I]|exact I|exact HI].
  - eapply run_one; eauto. intros N1 N2. apply (Inv_read rt l c se Failed).
  - eapply run_one; eauto. intros N1 N2. now apply Inv_did.
  - apply run_none with (N := N); auto. eapply calm_Inv; [split; [reflexivity|exact I]|exact I|exact HI].
  - (* new session *) destruct (Inv_session rt _ _ _ _ _ _ (or_introl eq_refl) HI) as (Ho & _ & Hz). specialize (Hz eq_refl). rewrite Hz in *. replace (if rt then _ else _) with (@nil tok) in * by (destruct rt; reflexivity).
    apply run_none with (N := N); auto. eapply Inv_sim; [intro i0; rewrite Hz; apply sim_refl|constructor|]. eapply Inv_job; [exact HI|exact I|apply sub_none|exact I|auto|exact I].
  - (* old session *) destruct (Inv_session rt _ _ _ _ _ _ (or_intror eq_refl) HI) as (Ho & _ & _).
    apply run_none with (N := N); auto. eapply Inv_job; [exact HI|exact I|apply sub_none|exact I|auto|exact I].
  - apply run_none with (N := N); auto. eapply calm_Inv; [split; [reflexivity|exact I]| |exact HI]. split; [|exact I]. apply half_halfw; auto. apply (i_nd _ _ _ _ _ _ HI).
  - apply run_none with (N := N); auto. eapply calm_Inv; [split; [reflexivity|exact I]| |exact HI]. apply unacked_openw; auto. apply (i_nd _ _ _ _ _ _ HI).
  - (* fetch *) eapply run_one; eauto. intros N1 N2 C K. destruct (i_job _ _ _ _ _ _ K) as (f & Ef & Eu).
    assert (Hr : rt = true) by exact HJ8.
    assert (K0 : Inv (l ++ [Did (ERetrieve id r)]) c se (Fetch id) N2) by (eapply Inv_did; eauto; exact I). destruct r as [bs|]; [|eapply calm_Inv; [split; [reflexivity|exact I]|exact I|exact K0]].
    destruct Hok as (_ & _ & O). destruct (O l id bs [] eq_refl) as (a & x & b & El & (v & -> & Ev) & Hb).
    assert (Hv : last_copy id l v true) by (exists a, (Did (EStore id v true)), b; auto).
    destruct (i_cp _ _ _ _ _ _ K Hr id f Ef Eu) as (v' & ok' & K1 & K2). destruct (last_unique _ _ _ _ _ _ Hv K1) as (<- & <-). destruct (K2 eq_refl) as (m0 & B1 & B2 & B3 & B4 & B5 & B6).
    apply fetched; auto.
    + exists f, m0. rewrite published_plain by (split; [discriminate|reflexivity]). rewrite <- Ev. auto 9.
    + intros (_ & (w & L) & _). assert (L' : last_copy id (l ++ [Did (ERetrieve id (Some bs))]) v true) by (apply last_copy_app; auto; discriminate). destruct (last_unique _ _ _ _ _ _ L L'). discriminate.
  - (* again *)
    assert (K : Inv (l ++ l0) c' se (Again id bs) N').
    { eapply sends_Inv; eauto. intros x N1 N2 E C K. eapply Inv_again; eauto. destruct (i_job _ _ _ _ _ _ K) as (f & _ & Ef & Eu & _). eapply openw_ok; eauto. exists f. auto. }
    destruct ok; (eapply calm_Inv; [split; [reflexivity|exact I]|exact I|exact K]).
  - apply run_none with (N := N); auto. eapply calm_Inv; [split; [reflexivity|exact I]|exact I|exact HI].
Qed.
End Net.
