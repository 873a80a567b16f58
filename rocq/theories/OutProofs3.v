(** QoS 1 publishes end to end: all histories of the machine. *)
From Verif Require Import Base StateModel StateSpec StateHarness SerModel WireSpec SerHarness SerProofs4 CoreModel CoreHarness Machine MachSpec MachProofs MachFacts MachFacts2 MachFinal NetSpec NetProofs NetProofs2 NetProofs3 NetProofs4 OutSpec OutProofs OutProofs2.

Section Net.
Variable rt : bool.
Notation Inv := (Inv rt).
Notation Inv1 := (Inv1 rt).
Notation mstep := (mstep rt false).
Lemma run_one1 l c se j x N N' se' j' : (forall N1 N2, cstep N1 x N2 -> Inv l c se j N1 -> Inv1 l se j N1 -> Inv1 (l ++ [x]) se' j' N2) -> nrun N [x] N' -> Inv l c se j N -> Inv1 l se j N -> Inv1 (l ++ [x]) se' j' N'.
Proof. intros H R K K1. inversion R; subst. inversion H6; subst. eapply Inv1_nets; eauto. eapply H; eauto; [eapply Inv_nets; eauto|eapply Inv1_nets; eauto]. Qed.
Lemma run_none1 l se j N N' : nrun N [] N' -> Inv1 l se j N -> Inv1 (l ++ []) se j N'.
Proof. intros R K. inversion R; subst. rewrite app_nil_r. eapply Inv1_nets; eauto. Qed.
Lemma sends_Inv1 p c ok l1 c' l se j N N' : sends p c ok l1 c' -> (forall x N1 N2, carries x = Some p -> l1 = [x] -> cstep N1 x N2 -> Inv l c se j N1 -> Inv1 l se j N1 -> Inv1 (l ++ [x]) se j N2) ->
  nrun N l1 N' -> Inv l c se j N -> Inv1 l se j N -> Inv1 (l ++ l1) se j N'.
Proof.
  intros S H R K K1. destruct (sends_tok _ _ _ _ _ S) as (x & -> & E & D). eapply run_one1; [|exact R|exact K|exact K1]. intros N1 N2. apply H; auto.
Qed.
Lemma plain_Inv1 p l c se j x N1 N2 : opens p = false -> (forall id, ~ isP1 id p) -> match p with KPublish m => pm_qos m <> Base.Q1 | _ => True end -> carries x = Some p -> cstep N1 x N2 -> Inv l c se j N1 -> Inv1 l se j N1 -> Inv1 (l ++ [x]) se j N2.
Proof. intros H1 H2 H3 E C _. now apply (Inv1_send rt l se j N1 x p). Qed.
Lemma notP1 p : match p with KPublish m => pm_qos m <> Base.Q1 | KAgain _ _ => False | _ => True end -> forall id, ~ isP1 id p.
Proof. intros H id (m & (M1 & M2) & K). apply is1_id in K. destruct p; try contradiction. subst. tauto. Qed.
Lemma calm_Inv1 l se j j' N : calm j' -> Inv1 l se j N -> Inv1 l se j' N.
Proof. intros (H1 & H2) H. eapply Inv1_job; eauto; [destruct j'; auto; contradiction|rewrite H1; apply sub_none]. Qed.

Definition P11 (l : list tok) (a : mstate) : Prop := ok_tok l -> sent_once l -> forall N, Joint l N -> Inv1 l (m_ses a) (m_job a) N.
Lemma once_prefix l1 l2 : sent_once (l1 ++ l2) -> sent_once l1.
Proof. intros H k1 id bs k2 E. apply (H k1 id bs (k2 ++ l2)). rewrite E, <- app_assoc. reflexivity. Qed.
Lemma fetched1 l se N id bs : Inv1 l se (Fetch id) N -> again_of l (Again id bs) -> ~ lost rt id l (Fetch id) -> Inv1 l se (Again id bs) N.
Proof.
  intros [A1 A2 A3 A4] HJ Hl. constructor; auto. intros i Hi. eapply phase1_lost; [|exact (A1 i Hi)]. intro K. destruct (Z.eq_dec i id) as [->|Ne]; [contradiction|]. destruct K as (K1 & K2 & _). split; [exact K1|]. split; [exact K2|]. auto.
Qed.
Lemma P11_keeps l a l1 b : P11 l a -> P9 rt l a -> P1 l a -> P5 l a -> P8 rt l a -> mstep a l1 b -> P11 (l ++ l1) b.
Proof.
  intros HP H9 H1 H5 (_ & HJ8) S Hok Hon N' HJ. pose proof (HP (ok_prefix _ _ Hok) (once_prefix _ _ Hon)) as H11. specialize (H9 (ok_prefix _ _ Hok)). destruct (joint_split _ _ HJ l l1 eq_refl) as (N & HN & R). specialize (H11 N HN). specialize (H9 N HN). clear HP HJ.
  destruct H1 as ((Hs & Hi & Hj) & _ & HJ1). destruct H5 as (_ & HJ5).
  assert (CI : calm Idle) by (split; [reflexivity|exact I]).
  assert (CF : calm Failed) by (split; [reflexivity|exact I]).
  destruct S; cbn [m_conn m_ses m_job m_next] in *.
  - (* publish, QoS 0 *) eapply sends_Inv1; eauto. intros x N1 N2 E _. apply (plain_Inv1 (KPublish m)); auto; [apply notP1|]; cbn; congruence.
  - (* publish *)
    destruct ok.
    + assert (Hd : pm_dup m = false) by (destruct (sends_tok _ _ _ _ _ H3) as (x & -> & E & _); destruct Hok as (_ & O & _); apply (O x m); auto; apply in_app_iff; right; apply in_app_iff; right; now left).
      assert (Hr : ok_of r = Success) by (destruct H1 as [H1|(_ & H1)]; [auto|congruence]). destruct (reserve_new _ _ _ H0 Hr) as (Hn & _).
      assert (K : exists N1, nrun N1 l1 N' /\ Inv (l ++ l0) Connected se j N1 /\ Inv1 (l ++ l0) se j N1 /\ (rt = true -> exists v, last_copy (pm_id m) (l ++ l0) v true /\ concat v = publish_packet (with_dup m))).
      { unfold kept_copy in H2. assert (Er : rt = true \/ rt = false) by (destruct rt; auto). destruct Er as [Er|Er]; rewrite Er in H2.
        - destruct H2 as (v & Ev & ->). destruct (nrun_cons _ _ _ _ R) as (N1 & N2 & R1 & R2 & R3). exists N2. split; auto. split; [eapply Inv_store; eauto; eapply Inv_nets; eauto|]. split; [eapply Inv1_store; eauto; eapply Inv1_nets; eauto|]. intros _. exists v. split; auto. apply last_copy_new.
        - destruct H2 as (_ & ->). exists N. rewrite app_nil_r. split; auto. split; auto. split; auto. congruence. }
      destruct K as (N1 & R1 & K1 & K3 & K2). rewrite app_assoc. destruct (sends_tok _ _ _ _ _ H3) as (x & -> & E & D).
      eapply run_one1; [|exact R1|exact K1|exact K3]. intros N2 N3 C I1 I2. pose proof (Inv1_publish rt _ _ _ _ _ _ _ _ E H H0 Hr K2 C I1 I2) as F1.
      destruct ok1; [|exact F1]. eapply Inv1_sim; [intro i0; apply published_sim|exact F1].
    + destruct H3 as (-> & -> & ->). unfold kept_copy in H2. assert (Er : rt = true \/ rt = false) by (destruct rt; auto). destruct Er as [Er|Er]; rewrite Er in H2; [|destruct H2; discriminate]. destruct H2 as (v & _ & ->). rewrite app_nil_r in *. eapply run_one1; [|exact R|exact H9|exact H11]. intros N1 N2 C I1 I2.
      destruct H1 as [Hr|(Hr & _)].
      * destruct (reserve_new _ _ _ H0 Hr) as (Hn & _). eapply Inv1_unstored; eauto; [apply last_copy_new|eapply Inv_store; eauto|eapply Inv1_store; eauto].
      * assert (Eo : sent (snd r) = sent se) by (apply reserve_old; fold r; rewrite Hr; discriminate).
        apply (Inv1_sim rt _ se); [intro i0; rewrite Eo; apply sim_refl|]. eapply Inv1_store; eauto.
  - eapply sends_Inv1; eauto. intros x N1 N2 E _. eapply plain_Inv1; [| | |exact E]; [reflexivity|now apply notP1|exact I].
  - eapply sends_Inv1; eauto. intros x N1 N2 E _. eapply plain_Inv1; [| | |exact E]; [reflexivity|now apply notP1|exact I].
  - eapply sends_Inv1; eauto. intros x N1 N2 E _. eapply plain_Inv1; [| | |exact E]; [reflexivity|now apply notP1|exact I].
  - (* disconnect *) assert (K : Inv l NotConnected se Idle N) by (eapply Inv_c; [|exact I|exact H9]; intro; congruence).
    eapply sends_Inv1; eauto. intros x N1 N2 E _. eapply plain_Inv1; [| | |exact E]; [reflexivity|now apply notP1|exact I].
  - eapply run_one1; eauto. intros N1 N2 C _. now apply (Inv1_did rt l se j N1).
  - discriminate.
  - eapply run_one1; eauto. intros N1 N2 C _. now apply (Inv1_read rt l se Idle N1).
  - eapply run_one1; eauto. intros N1 N2 C _ K. eapply calm_Inv1; [exact CF|]. eapply Inv1_did; eauto; exact I.
  - apply run_none1 with (N := N); auto. eapply calm_Inv1; [exact CI|exact H11].
  - eapply run_one1; eauto. intros N1 N2 C _. now apply (Inv1_did rt l se Idle N1).
  - eapply run_one1; eauto. intros N1 N2 C _. now apply (Inv1_packet rt l se Idle N1).
  - apply run_none1 with (N := N); auto. eapply calm_Inv1; [exact CI|exact H11].
  - apply run_none1 with (N := N); auto. eapply calm_Inv1; [split; [reflexivity|exact I]|exact H11].
  - (* a publish comes *) apply run_none1 with (N := N); auto. eapply calm_Inv1; [split; [reflexivity|exact I]|].
    eapply Inv1_sim; [intro i0; apply published_sim|exact H11].
  - apply run_none1 with (N := N); auto. eapply calm_Inv1; [split; [reflexivity|exact I]|exact H11].
  - (* an acknowledgement comes *) apply run_none1 with (N := N); auto. eapply Inv1_acked; eauto.
    + destruct k, rt; reflexivity.
    + destruct k, rt; exact I.
  - apply run_none1 with (N := N); auto. eapply calm_Inv1; [split; [reflexivity|exact I]|exact H11].
  - apply run_none1 with (N := N); auto. eapply calm_Inv1; [split; [reflexivity|exact I]|exact H11].
  - apply run_none1 with (N := N); auto. eapply calm_Inv1; [split; [reflexivity|exact I]|exact H11].
  - (* clear *) eapply run_one1; eauto. intros N1 N2 C _ K. destruct HJ5 as (e & j' & -> & _). eapply calm_Inv1; [split; [reflexivity|exact I]|]. eapply Inv1_did; eauto; exact I.
  - (* show *) eapply run_one1; eauto. intros N1 N2 C _ K. destruct HJ5 as (Hcb & _ & Hn). eapply calm_Inv1; [now apply noshow_calm|]. eapply Inv1_did; [|eauto|eauto]. destruct e; try contradiction; exact I.
  - (* an acknowledgement is sent *)
    assert (K : Inv1 (l ++ l0) se (Owe k id j) N') by (eapply sends_Inv1; eauto; intros x N1 N2 E _; eapply plain_Inv1; [| | |exact E]; [reflexivity|now apply notP1|exact I]).
    destruct ok; (eapply calm_Inv1; [|exact K]); [split; [reflexivity|exact I]|apply give_calm].
  - apply run_none1 with (N := N); auto. eapply calm_Inv1; [apply give_calm|exact H11].
  - (* and noted *) apply run_none1 with (N := N); auto.
    assert (K : Inv1 l (snd r) (Note k id j) N) by (eapply Inv1_sim; [intro i0; apply acksent_sim|exact H11]).
    destruct (status_beq (ok_of r) Success); (eapply calm_Inv1; [|exact K]); [|apply give_calm]. destruct HJ5; subst j; split; auto; exact I.
  - (* connect *)
    destruct (sends_tok _ _ _ _ _ H0) as (x & -> & E & D). eapply run_one1; eauto. intros N1 N2 C _ K. pose proof (Inv1_connect rt _ _ _ _ _ _ _ (eq_refl : Djob Idle = []) E C K) as F1.
    destruct D as [(-> & -> & _)|[(-> & -> & _)|(-> & -> & _)]]; exact F1.
  - eapply run_one1; eauto. intros N1 N2 C _. now apply (Inv1_read rt l se (Wait cl bs) N1).
  - apply run_none1 with (N := N); auto. eapply calm_Inv1; [exact CF|exact H11].
  - eapply run_one1; eauto. intros N1 N2 C _. now apply (Inv1_read rt l se Failed N1).
  - eapply run_one1; eauto. intros N1 N2 C _. now apply (Inv1_did rt l se Failed N1).
  - apply run_none1 with (N := N); auto. eapply calm_Inv1; [exact CF|exact H11].
  - (* new session *) destruct (Inv_session rt _ _ _ _ _ _ (or_introl eq_refl) H9) as (Ho & _ & Hz). specialize (Hz eq_refl). rewrite Hz in *. replace (if rt then _ else _) with (@nil tok) in * by (destruct rt; reflexivity).
    apply run_none1 with (N := N); auto. eapply Inv1_sim; [intro i0; rewrite Hz; apply sim_refl|]. eapply calm_Inv1; [exact CI|exact H11].
  - apply run_none1 with (N := N); auto. eapply calm_Inv1; [split; [reflexivity|exact I]|exact H11].
  - apply run_none1 with (N := N); auto. eapply calm_Inv1; [split; [reflexivity|exact I]|exact H11].
  - apply run_none1 with (N := N); auto. eapply calm_Inv1; [split; [reflexivity|exact I]|exact H11].
  - (* fetch *) eapply run_one1; eauto. intros N1 N2 C K K1. destruct (i_job _ _ _ _ _ _ K) as (f & Ef & Eu).
    assert (Hr : rt = true) by exact HJ8.
    assert (K0 : Inv1 (l ++ [Did (ERetrieve id r)]) se (Fetch id) N2) by (eapply Inv1_did; eauto; exact I). destruct r as [bs|]; [|eapply calm_Inv1; [exact CF|exact K0]].
    destruct Hok as (_ & _ & O). destruct (O l id bs [] eq_refl) as (a & x & b & El & (v & -> & Ev) & Hb).
    assert (Hv : last_copy id l v true) by (exists a, (Did (EStore id v true)), b; auto).
    apply fetched1; auto.
    + intros m0 B1 B2 B3 B4. rewrite published1_plain by (split; [discriminate|split; [reflexivity|intros (m1 & C1); discriminate]]).
      destruct (i_cp _ _ _ _ _ _ K Hr id f Ef Eu) as (v' & ok' & D1 & D2). destruct (last_unique _ _ _ _ _ _ Hv D1) as (<- & <-). destruct (D2 eq_refl) as (m1 & E1 & E2 & E3 & E4 & E5 & _).
      assert (Em : with_dup m0 = with_dup m1) by (apply publish_packet_inj; auto; cbn; congruence).
      assert (Eq : pm_qos m1 = Base.Q1) by (change (pm_qos m1) with (pm_qos (with_dup m1)); rewrite <- Em; exact B3).
      apply (j_cp _ _ _ _ _ K1 Hr id f v); auto; congruence.
    + intros (_ & (w & L) & _). assert (L' : last_copy id (l ++ [Did (ERetrieve id (Some bs))]) v true) by (apply last_copy_app; auto; discriminate). destruct (last_unique _ _ _ _ _ _ L L'). discriminate.
  - (* again *)
    assert (K : Inv1 (l ++ l0) se (Again id bs) N').
    { eapply sends_Inv1; eauto. intros x N1 N2 E D C K K1. eapply Inv1_again; eauto.
      - destruct (i_job _ _ _ _ _ _ K) as (f & _ & Ef & Eu & _). eapply openw_ok; eauto. exists f. auto.
      - intros b0 Ex. subst x. assert (b0 = bs) by (cbn in E; congruence). subst b0. apply (Hon l id bs []). now rewrite D. }
    destruct ok; (eapply calm_Inv1; [|exact K]; split; [reflexivity|exact I]).
  - apply run_none1 with (N := N); auto. eapply calm_Inv1; [exact CI|exact H11].
Qed.
End Net.
