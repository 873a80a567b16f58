(** QoS 1 publishes end to end: the claims. *)
From Verif Require Import Base StateModel StateSpec StateHarness SerModel WireSpec SerHarness SerProofs4 CoreModel CoreHarness CoreSpec ConcModel ConcHarness
  Machine MachSpec MachProofs MachProofs5 MachFacts MachFacts2 MachFinal NetSpec NetProofs NetProofs2 NetProofs3 NetProofs4 NetFinal OutSpec OutProofs OutProofs2 OutProofs3 OutProofs4.

(** ** The server only adds to what it passed on *)
Lemma nstep_arrived id N N' : nstep N N' -> exists d, arrived id N' = arrived id N ++ d.
Proof.
  destruct 1; unfold arrived; cbn [n_srv]; try (exists []; now rewrite app_nil_r).
  destruct H; cbn [v_log]; try (exists []; now rewrite app_nil_r); [rewrite filter_app, map_app; eauto|]. destruct (holds_id v (pm_id m)); [exists []; now rewrite app_nil_r|]. cbn [v_log]. rewrite filter_app, map_app. eauto.
Qed.
Lemma cstep_arrived id N x N' : cstep N x N' -> arrived id N' = arrived id N.
Proof. destruct 1; reflexivity. Qed.
Lemma nsteps_arrived id N N' : nsteps N N' -> exists d, arrived id N' = arrived id N ++ d.
Proof.
  induction 1; [exists []; now rewrite app_nil_r|]. destruct IHnsteps as (d & E). destruct (nstep_arrived id _ _ H0) as (d' & E'). exists (d ++ d'). rewrite E', E. now rewrite app_assoc.
Qed.
Lemma nrun_arrived id l : forall N N', nrun N l N' -> exists d, arrived id N' = arrived id N ++ d.
Proof.
  induction l as [|x l IH]; intros N N' H; inversion H; subst; [now apply nsteps_arrived|]. destruct (IH _ _ H6) as (d & E). destruct (nsteps_arrived id _ _ H2) as (d' & E'). exists (d' ++ d). rewrite E, (cstep_arrived _ _ _ _ H4), E'. now rewrite app_assoc.
Qed.
Lemma repeated_split ms : forall q xs, repeated (ms ++ q) xs -> exists x1 x2, xs = x1 ++ x2 /\ repeated ms x1.
Proof.
  induction q as [|m q IH] using rev_ind; intros xs H; [rewrite app_nil_r in H; exists xs, []; rewrite app_nil_r; auto|].
  rewrite app_assoc in H. inversion H as [E|ms' xs' m' n H' E1 E2].
  - symmetry in E. apply app_eq_nil in E. destruct E. discriminate.
  - apply app_inj_tail in E1. destruct E1 as (-> & ->). destruct (IH _ H') as (x1 & x2 & -> & K). exists x1, (x2 ++ repeat m (S n)). rewrite app_assoc. auto.
Qed.

(** ** When the application is told *)
Definition told1 (l : list tok) (N : net) (id : Z) : Prop :=
  exists a b xs ys, l = a ++ Did (EPkt 64 (be16 id)) :: b /\ Forall (fun x => ~ comes x) b /\ arrived id N = xs ++ ys /\ repeated (published1 id a) xs.
Lemma told1_grow l l1 N N' id : told1 l N id -> Forall (fun x => ~ comes x) l1 -> nrun N l1 N' -> told1 (l ++ l1) N' id.
Proof.
  intros (a & b & xs & ys & -> & Hb & E & Er) H R. destruct (nrun_arrived id _ _ _ R) as (d & Ed). exists a, (b ++ l1), xs, (ys ++ d). split; [now rewrite <- app_assoc|]. split; [apply Forall_app; auto|]. rewrite Ed, E. now rewrite app_assoc.
Qed.
Lemma told1_mono l l1 N N' id : told1 l N id -> nrun N l1 N' -> told1 l N' id.
Proof. intros (a & b & xs & ys & -> & Hb & E & Er) R. destruct (nrun_arrived id _ _ _ R) as (d & Ed). exists a, b, xs, (ys ++ d). split; auto. split; auto. rewrite Ed, E. now rewrite app_assoc. Qed.
Definition tells_all1 (l : list tok) (N : net) : Prop := forall l1 x l2 id, l = l1 ++ x :: l2 -> id_ok id -> confirms id x -> told1 l1 N id.
Definition plainc (x : tok) : Prop := forall id, ~ confirms id x.
Lemma tells_all1_snoc l l1 N N' : tells_all1 l N -> nrun N l1 N' -> Forall plainc l1 -> tells_all1 (l ++ l1) N'.
Proof.
  intros H R Hp l0 x l2 id E Hid Hx.
  assert (K : exists l3, l = l0 ++ x :: l3).
  { assert (HIn : forall z, In z l1 -> z <> x) by (intros z Hz ->; rewrite Forall_forall in Hp; exact (Hp _ Hz id Hx)).
    clear - E HIn. revert l0 E. induction l as [|z l IH]; intros l0 E.
    - cbn in E. exfalso. apply (HIn x); auto. rewrite E. apply in_app_iff. right. now left.
    - destruct l0 as [|w l0]; cbn in E; [exists l; cbn; congruence|]. destruct (IH l0 ltac:(congruence)) as (l3 & ->). exists l3. cbn. congruence. }
  destruct K as (l3 & K). eapply told1_mono; eauto.
Qed.
Definition J13 (l : list tok) (j : job) (N : net) : Prop :=
  match j with Show e _ | Clear _ (Show e _) => forall id, id_ok id -> confirms id (Did e) -> told1 l N id | _ => True end.
Definition P13 (l : list tok) (a : mstate) : Prop := ok_tok l -> sent_once l -> forall N, Joint l N -> tells_all1 l N /\ J13 l (m_job a) N.
Definition softc (x : tok) : Prop := ~ comes x /\ plainc x.
Lemma sends_softc p c ok l c' : sends p c ok l c' -> Forall softc l.
Proof. intro H. destruct (sends_tok _ _ _ _ _ H) as (x & -> & E & _). constructor; [split; [eapply calm_carry; eauto|intros id (i & d & r & ->); discriminate]|constructor]. Qed.
Lemma softc_did e : match e with EPkt _ _ | ECb _ _ _ _ _ => False | _ => True end -> softc (Did e).
Proof. intro H. split; [intros (ty & body & E)|intros id (i & d & r & E)]; injection E as ->; contradiction. Qed.
Lemma P13_soft l l1 j N N' : Forall softc l1 -> nrun N l1 N' -> tells_all1 l N /\ J13 l j N -> tells_all1 (l ++ l1) N' /\ J13 (l ++ l1) j N'.
Proof.
  intros H R (A & B). assert (H1 : Forall plainc l1) by (eapply Forall_impl; [|exact H]; intros x K; apply K). assert (H2 : Forall (fun x => ~ comes x) l1) by (eapply Forall_impl; [|exact H]; intros x K; apply K).
  split; [eapply tells_all1_snoc; eauto|]. destruct j; auto; [destruct j; auto|]; intros i0 Hid Hx; eapply told1_grow; eauto; now apply B.
Qed.
Lemma P13_quiet l l1 j j' N N' : Forall softc l1 -> J13 (l ++ l1) j' N' -> nrun N l1 N' -> tells_all1 l N /\ J13 l j N -> tells_all1 (l ++ l1) N' /\ J13 (l ++ l1) j' N'.
Proof. intros H K R A. destruct (P13_soft l l1 j N N' H R A). auto. Qed.
Lemma publish_not_conf ty body m i d r id : publish_means ty body m -> ~ confirms id (Did (ECb ty body i d r)).
Proof. intros (_ & -> & _) (u & v & w & E). assert (X : publish_first m = 64) by congruence. pose proof (publish_first_range m). lia. Qed.
Lemma P13_keeps rt l a l1 b : P13 l a -> P11 rt (l ++ l1) b -> P1 l a -> P5 l a -> mstep rt false a l1 b -> P13 (l ++ l1) b.
Proof.
  intros HP H11 H1 H5 S Hok Hon N' HJ. pose proof (H11 Hok Hon N' HJ) as HI. clear H11. pose proof (HP (ok_prefix _ _ Hok) (once_prefix _ _ Hon)) as H10. destruct (joint_split _ _ HJ l l1 eq_refl) as (N & HN & R). specialize (H10 N HN). clear HP HJ.
  destruct H1 as (_ & _ & HJ1). destruct H5 as (_ & HJ5).
  destruct S; cbn [m_conn m_ses m_job m_next] in *;
    try (apply (P13_soft _ _ _ N); [solve [eapply sends_softc; eauto|constructor; [apply softc_did; exact I|constructor]]|exact R|exact H10]);
    try (eapply P13_quiet; [|exact I|exact R|exact H10]; solve [constructor|eapply sends_softc; eauto|constructor; [apply softc_did; exact I|constructor]]).
  - apply (P13_soft _ _ _ N); auto. apply Forall_app. split.
    + unfold kept_copy in H2. destruct rt; [destruct H2 as (v & _ & ->); constructor; [apply softc_did; exact I|constructor]|destruct H2 as (_ & ->); constructor].
    + destruct ok; [eapply sends_softc; eauto|destruct H3 as (_ & -> & _); constructor].
  - discriminate.
  - (* a packet *) split; [|exact I]. eapply tells_all1_snoc; [apply H10|exact R|]. constructor; [|constructor]. intros id (i0 & d & r & C). discriminate.
  - eapply P13_quiet; [constructor| |exact R|exact H10]. intros id Hid C. exfalso. revert C. eapply publish_not_conf; eauto.
  - eapply P13_quiet; [constructor| |exact R|exact H10]. intros id Hid C. exfalso. revert C. eapply publish_not_conf; eauto.
  - (* an acknowledgement *) eapply P13_quiet; [constructor| |exact R|exact H10]. rewrite app_nil_r in *.
    assert (K : forall i0, id_ok i0 -> confirms i0 (Did (ECb (ack_first (ack_of k)) (be16 id) id None Success)) -> told1 l N' i0).
    { intros i0 Hid (a & d & r0 & C). destruct k; try (exfalso; cbn in C; congruence). assert (i0 = id) by (apply be16_inj; auto; congruence). subst i0.
      destruct HJ1 as (l1 & x & l2 & El & <- & Hb). pose proof (j_ph _ _ _ _ _ HI id Hid) as Hp. cbn [m_ses] in Hp. destruct (acked_look _ _ _ H0) as (_ & L). rewrite L, Z.eqb_refl in Hp. destruct Hp as (_ & _ & Hp). rewrite El, published1_app in Hp.
      destruct (repeated_split _ _ _ Hp) as (xs & ys & E1 & E2). exists l1, l2, xs, ys. split; auto. split; auto. eapply Forall_impl; [|exact Hb]; intros x K; apply K. }
    destruct k, rt; exact K.
  - eapply P13_quiet; [constructor| |exact R|exact H10]. intros i0 Hid (a & d & r0 & C). exfalso. congruence.
  - eapply P13_quiet; [constructor| |exact R|exact H10]. intros i0 Hid (a & d & r0 & C). exfalso. congruence.
  - eapply P13_quiet; [constructor| |exact R|exact H10]. intros i0 Hid (a & d & r0 & C). exfalso. congruence.
  - (* clear *) destruct HJ5 as (e & j' & -> & _). destruct (P13_soft l [Did (EClear id)] (Clear id (Show e j')) N N') as (A & B); [constructor; [apply softc_did; exact I|constructor]|exact R|exact H10|]. split; auto.
  - (* show *) destruct HJ5 as (Hcb & _ & Hn). split; [|destruct j; try contradiction; exact I]. intros l1 x l2 i0 El Hid C. destruct H10 as (A & B). destruct (snoc_split _ _ _ _ _ El) as [(E1 & E2 & _)|(l3 & E1 & E2)]; subst.
    + eapply told1_mono; eauto.
    + eapply told1_mono; eauto.
  - (* acknowledge *) eapply P13_quiet; [eapply sends_softc; eauto| |exact R|exact H10]. destruct ok; [exact I|destruct j; exact I].
  - eapply P13_quiet; [constructor| |exact R|exact H10]. destruct j; exact I.
  - eapply P13_quiet; [constructor| |exact R|exact H10]. destruct HJ5; subst j; destruct (status_beq _ _); exact I.
  - eapply P13_quiet; [eapply sends_softc; eauto| |exact R|exact H10]. destruct ok; exact I.
  - eapply P13_quiet; [|exact I|exact R|exact H10]. destruct rt; [|constructor]. apply Forall_forall. intros x Hx. apply in_map_iff in Hx. destruct Hx as (i0 & <- & _). apply softc_did. exact I.
  - eapply P13_quiet; [constructor; [apply softc_did; exact I|constructor]| |exact R|exact H10]. destruct r; exact I.
  - eapply P13_quiet; [eapply sends_softc; eauto| |exact R|exact H10]. destruct ok; exact I.
Qed.

(** ** All runs, at any moment *)
Lemma out_facts rt n m l b : Run rt false (mkM NotConnected (fresh_session n m) 1 Idle) l b -> P11 rt l b /\ P13 l b /\ P12 rt l b.
Proof.
  intro R. set (P := fun l a => P11 rt l a /\ P13 l a /\ P12 rt l a /\ P9 rt l a /\ P1 l a /\ P5 l a /\ P8 rt l a).
  assert (K : P ([] ++ l) b).
  { apply (run_keeps rt false P) with (a := mkM NotConnected (fresh_session n m) 1 Idle); auto.
    - intros l0 a l1 b0 (A1 & A2 & A3 & A4 & A5 & A6 & A7) S. pose proof (proj1 A5) as Hk. assert (A1' : P11 rt (l0 ++ l1) b0) by (eapply P11_keeps; eauto).
      split; auto. split; [eapply P13_keeps; eauto|]. split; [eapply P12_keeps; eauto|]. split; [eapply P9_keeps; eauto|]. split; [eapply P1_keeps; eauto|]. split; [eapply P5_keeps; eauto|eapply P8_keeps; eauto].
    - split; [|split; [|split; [|split; [|split; [split; [|split; [apply each_nil|exact I]]|split; [split; [apply each_nil|exact I]|split; [apply each_nil|exact I]]]]]]].
      + intros _ _ N HN. cbn [m_conn m_ses m_job].
        assert (G0 : Inv1 rt [] (fresh_session n m) Idle net0).
        { constructor; cbn; auto; try discriminate.
          - intros id _. split; [constructor|]. split; [constructor|constructor].
          - intros id _ (a & x & b0 & E & _). destruct a; discriminate. }
        remember (@nil tok) as k eqn:Ek. revert Ek. induction HN; intros Ek; auto; [destruct k; discriminate|]. subst k. eapply Inv1_net; eauto.
      + intros _ _ N HN. split; [|exact I]. intros l1 x l2 id E. destruct l1; discriminate.
      + intros _ _. split; [|exact I]. intros k1 id bs k2 E. destruct k1; discriminate.
      + intros _ N HN. cbn [m_conn m_ses m_job].
        assert (G0 : Inv rt [] NotConnected (fresh_session n m) Idle net0).
        { constructor; cbn; auto; try discriminate; try contradiction. constructor. intros id _. split; auto. split; [constructor|]. split; [constructor|reflexivity]. }
        remember (@nil tok) as k eqn:Ek. revert Ek. induction HN; intros Ek; auto; [destruct k; discriminate|]. subst k. eapply Inv_net; eauto.
      + split; [split; constructor|]. split; [unfold id_ok; cbn; lia|exact I]. }
  destruct K as (A & B & C & _). auto.
Qed.
Lemma aside_published1 id p : Forall aside p -> published1 id p = [].
Proof. induction 1 as [|x p (e & -> & _) F IH]; auto. Qed.

Lemma least_once rt n m k b : Run rt false (mkM NotConnected (fresh_session n m) 1 Idle) k b -> one_session k -> no_dups k -> keeps_copies k -> undistk k ->
  (forall k1 k2 N id, k = k1 ++ k2 -> Joint k1 N -> id_ok id -> exists ms rest, published1 id k1 = ms ++ rest /\ (length rest <= 1)%nat /\ repeated ms (arrived id N)) /\
  (forall N id, Joint k N -> id_ok id -> in_flight (sent (m_ses b)) id = false -> repeated (published1 id k) (arrived id N)) /\
  (forall k1 x k2 N id, k = k1 ++ x :: k2 -> Joint k N -> id_ok id -> confirms id x ->
     exists a c xs ys, k1 = a ++ Did (EPkt 64 (be16 id)) :: c /\ Forall (fun x => ~ comes x) c /\ arrived id N = xs ++ ys /\ repeated (published1 id a) xs).
Proof.
  intros R O1 O2 O3 O4. assert (O : ok_tok k) by (split; [exact O1|split; [exact O2|exact O3]]). destruct (out_facts _ _ _ _ _ R) as (H11 & H13 & H12). destruct (H12 O2 O4) as (Oo & _). split; [|split].
  - intros k1 k2 N id E HN Hid. destruct (run_prefix _ _ _ _ R _ _ E) as (l & p & c & -> & R1 & F). destruct (out_facts _ _ _ _ _ R1) as (H & _). rewrite E in O, Oo. apply ok_prefix, ok_prefix in O. apply once_prefix, once_prefix in Oo. apply aside_joint in HN; auto.
    specialize (H O Oo N HN). pose proof (j_ph _ _ _ _ _ H id Hid) as Hp. rewrite published1_app, (aside_published1 id p), app_nil_r by auto.
    assert (Bf : free1 id (n_up N) (Djob (m_job c) ++ n_down N) (published1 id l) (arrived id N) -> exists ms rest, published1 id l = ms ++ rest /\ (length rest <= 1)%nat /\ repeated ms (arrived id N)).
    { intros (_ & _ & B). exists (published1 id l), []. rewrite app_nil_r. auto. }
    destruct (lookup _ _) as [[i q s]|]; [destruct q; auto; cbn [phase1] in Hp|auto]. destruct Hp as [(ms & m' & xs & n' & A1 & A2 & A3 & _)|(A & _)]; auto. rewrite A1, A2. destruct n' as [|n']; [exists ms, [m']; cbn [repeat]; rewrite app_nil_r; auto|]. exists (ms ++ [m']), []. rewrite app_nil_r. split; auto. split; [cbn; lia|]. now constructor.
  - intros N id HN Hid Hf. specialize (H11 O Oo N HN). pose proof (j_ph _ _ _ _ _ H11 id Hid) as Hp. rewrite lookup_flight in Hf. destruct (lookup _ _); [discriminate|]. now destruct Hp as (_ & _ & Hp).
  - intros k1 x k2 N id E HN Hid Hx. destruct (H13 O Oo N HN) as (T & _). exact (T _ _ _ _ E Hid Hx).
Qed.
