(** Publishes end to end: the claims. *)
From Verif Require Import Base StateModel StateSpec StateHarness SerModel WireSpec SerHarness SerProofs4 CoreModel CoreHarness CoreSpec ConcModel ConcHarness
  Machine MachSpec MachProofs MachProofs5 MachFacts MachFacts2 MachFinal NetSpec NetProofs NetProofs2 NetProofs3 NetProofs4.

(** ** The server only adds to what it passed on *)
Lemma nstep_passed id N N' : nstep N N' -> exists d, passed_on id N' = passed_on id N ++ d.
Proof.
  destruct 1; unfold passed_on; cbn [n_srv]; try (exists []; now rewrite app_nil_r).
  destruct H; cbn [v_log]; try (exists []; now rewrite app_nil_r); [rewrite filter_app, map_app; eauto|]. destruct (holds_id v (pm_id m)); [exists []; now rewrite app_nil_r|]. cbn [v_log]. rewrite filter_app, map_app. eauto.
Qed.
Lemma cstep_passed id N x N' : cstep N x N' -> passed_on id N' = passed_on id N.
Proof. destruct 1; reflexivity. Qed.
Lemma nsteps_passed id N N' : nsteps N N' -> exists d, passed_on id N' = passed_on id N ++ d.
Proof.
  induction 1; [exists []; now rewrite app_nil_r|]. destruct IHnsteps as (d & E). destruct (nstep_passed id _ _ H0) as (d' & E'). exists (d ++ d'). rewrite E', E. now rewrite app_assoc.
Qed.
Lemma nrun_passed id l : forall N N', nrun N l N' -> exists d, passed_on id N' = passed_on id N ++ d.
Proof.
  induction l as [|x l IH]; intros N N' H; inversion H; subst; [now apply nsteps_passed|]. destruct (IH _ _ H6) as (d & E). destruct (nsteps_passed id _ _ H2) as (d' & E'). exists (d' ++ d). rewrite E, (cstep_passed _ _ _ _ H4), E'. now rewrite app_assoc.
Qed.

(** ** When the application is told *)
Definition told_of (l : list tok) (N : net) (id : Z) : Prop :=
  exists a b rest, l = a ++ Did (EPkt 112 (be16 id)) :: b /\ Forall (fun x => ~ comes x) b /\ passed_on id N = published id a ++ rest.
Lemma told_grow l l1 N N' id : told_of l N id -> Forall (fun x => ~ comes x) l1 -> nrun N l1 N' -> told_of (l ++ l1) N' id.
Proof.
  intros (a & b & rest & -> & Hb & E) H R. destruct (nrun_passed id _ _ _ R) as (d & Ed). exists a, (b ++ l1), (rest ++ d). split; [now rewrite <- app_assoc|]. split; [apply Forall_app; auto|]. rewrite Ed, E. now rewrite app_assoc.
Qed.
Lemma told_mono l l1 N N' id : told_of l N id -> nrun N l1 N' -> told_of l N' id.
Proof. intros (a & b & rest & -> & Hb & E) R. destruct (nrun_passed id _ _ _ R) as (d & Ed). exists a, b, (rest ++ d). split; auto. split; auto. rewrite Ed, E. now rewrite app_assoc. Qed.
Definition tells_all (l : list tok) (N : net) : Prop := forall l1 x l2 id, l = l1 ++ x :: l2 -> id_ok id -> completes id x -> told_of l1 N id.
Lemma tells_all_snoc l l1 N N' : tells_all l N -> nrun N l1 N' -> Forall plain l1 -> tells_all (l ++ l1) N'.
Proof.
  intros H R Hp l0 x l2 id E Hid Hx.
  assert (K : exists l3, l = l0 ++ x :: l3).
  { revert l2 E. induction l1 as [|y l1 IH] using rev_ind; intros l2 E; [rewrite app_nil_r in E; eauto|]. clear IH.
    assert (HIn : forall z, In z (l1 ++ [y]) -> z <> x) by (intros z Hz ->; rewrite Forall_forall in Hp; exact (Hp _ Hz id Hx)).
    clear - E HIn. revert l0 E. induction l as [|z l IH]; intros l0 E.
    - cbn in E. exfalso. apply (HIn x); auto. rewrite E. apply in_app_iff. right. now left.
    - destruct l0 as [|w l0]; cbn in E; [exists l; cbn; congruence|]. destruct (IH l0 ltac:(congruence)) as (l3 & ->). exists l3. cbn. congruence. }
  destruct K as (l3 & K). destruct (H _ _ _ _ K Hid Hx) as (a & b & rest & E1 & E2 & E3). destruct (nrun_passed id _ _ _ R) as (d & Ed).
  exists a, b, (rest ++ d). split; auto. split; auto. rewrite Ed, E3. now rewrite app_assoc.
Qed.
Definition J10 (l : list tok) (j : job) (N : net) : Prop :=
  match j with Show e _ | Clear _ (Show e _) => forall id, id_ok id -> completes id (Did e) -> told_of l N id | _ => True end.
Definition P10 (l : list tok) (a : mstate) : Prop := ok_tok l -> forall N, Joint l N -> tells_all l N /\ J10 l (m_job a) N.
Lemma plain_carry x p : carries x = Some p -> plain x.
Proof. intros E id (i & d & r & ->). discriminate. Qed.
Lemma calm_carry x p : carries x = Some p -> ~ comes x.
Proof. intros E (ty & body & ->). discriminate. Qed.
Definition soft (x : tok) : Prop := ~ comes x /\ plain x.
Lemma sends_soft p c ok l c' : sends p c ok l c' -> Forall soft l.
Proof. intro H. destruct (sends_tok _ _ _ _ _ H) as (x & -> & E & _). constructor; [split; [eapply calm_carry|eapply plain_carry]; eauto|constructor]. Qed.
Lemma soft_did e : match e with EPkt _ _ | ECb _ _ _ _ _ => False | _ => True end -> soft (Did e).
Proof. intro H. split; [intros (ty & body & E)|intros id (i & d & r & E)]; injection E as ->; contradiction. Qed.
Lemma P10_soft l l1 j N N' : Forall soft l1 -> nrun N l1 N' -> tells_all l N /\ J10 l j N -> tells_all (l ++ l1) N' /\ J10 (l ++ l1) j N'.
Proof.
  intros H R (A & B). assert (H1 : Forall plain l1) by (eapply Forall_impl; [|exact H]; intros x K; apply K). assert (H2 : Forall (fun x => ~ comes x) l1) by (eapply Forall_impl; [|exact H]; intros x K; apply K).
  split; [eapply tells_all_snoc; eauto|]. destruct j; auto; [destruct j; auto|]; intros i0 Hid Hx; eapply told_grow; eauto; now apply B.
Qed.
Lemma P10_quiet l l1 j j' N N' : Forall soft l1 -> J10 (l ++ l1) j' N' -> nrun N l1 N' -> tells_all l N /\ J10 l j N -> tells_all (l ++ l1) N' /\ J10 (l ++ l1) j' N'.
Proof. intros H K R A. destruct (P10_soft l l1 j N N' H R A). auto. Qed.
Lemma P10_keeps rt l a l1 b : P10 l a -> P9 rt (l ++ l1) b -> P1 l a -> P5 l a -> mstep rt false a l1 b -> P10 (l ++ l1) b.
Proof.
  intros HP H9 H1 H5 S Hok N' HJ. pose proof (H9 Hok N' HJ) as HI. clear H9. pose proof (HP (ok_prefix _ _ Hok)) as H10. destruct (joint_split _ _ HJ l l1 eq_refl) as (N & HN & R). specialize (H10 N HN). clear HP HJ.
  destruct H1 as (_ & _ & HJ1). destruct H5 as (_ & HJ5).
  destruct S; cbn [m_conn m_ses m_job m_next] in *;
    try (apply (P10_soft _ _ _ N); [solve [eapply sends_soft; eauto|constructor; [apply soft_did; exact I|constructor]]|exact R|exact H10]);
    try (eapply P10_quiet; [|exact I|exact R|exact H10]; solve [constructor|eapply sends_soft; eauto|constructor; [apply soft_did; exact I|constructor]]).
  - apply (P10_soft _ _ _ N); auto. apply Forall_app. split.
    + unfold kept_copy in H2. destruct rt; [destruct H2 as (v & _ & ->); constructor; [apply soft_did; exact I|constructor]|destruct H2 as (_ & ->); constructor].
    + destruct ok; [eapply sends_soft; eauto|destruct H3 as (_ & -> & _); constructor].
  - discriminate.
  - (* a packet *) split; [|exact I]. eapply tells_all_snoc; [apply H10|exact R|]. constructor; [|constructor]. intros id (i0 & d & r & C). discriminate.
  - eapply P10_quiet; [constructor| |exact R|exact H10]. intros id Hid C. exfalso. revert C. eapply publish_not_done; eauto.
  - eapply P10_quiet; [constructor| |exact R|exact H10]. intros id Hid C. exfalso. revert C. eapply publish_not_done; eauto.
  - (* an acknowledgement *) eapply P10_quiet; [constructor| |exact R|exact H10]. rewrite app_nil_r in *.
    assert (K : forall i0, id_ok i0 -> completes i0 (Did (ECb (ack_first (ack_of k)) (be16 id) id None Success)) -> told_of l N' i0).
    { intros i0 Hid (a & d & r0 & C). destruct k; try (exfalso; cbn in C; congruence). assert (i0 = id) by (apply be16_inj; auto; congruence). subst i0.
      destruct HJ1 as (l1 & x & l2 & El & <- & Hb). pose proof (i_ph _ _ _ _ _ _ HI id Hid) as Hp. cbn [m_ses] in Hp. destruct (acked_look _ _ _ H0) as (_ & L). rewrite L, Z.eqb_refl in Hp. destruct Hp as (_ & _ & _ & Hp).
      exists l1, l2, (published id (Did (EPkt 112 (be16 id)) :: l2)). split; auto. split; [eapply Forall_impl; [|exact Hb]; intros x K; apply K|]. rewrite <- Hp, El. now rewrite published_app. }
    destruct k, rt; exact K.
  - eapply P10_quiet; [constructor| |exact R|exact H10]. intros i0 Hid (a & d & r0 & C). exfalso. congruence.
  - eapply P10_quiet; [constructor| |exact R|exact H10]. intros i0 Hid (a & d & r0 & C). exfalso. congruence.
  - eapply P10_quiet; [constructor| |exact R|exact H10]. intros i0 Hid (a & d & r0 & C). exfalso. congruence.
  - (* clear *) destruct HJ5 as (e & j' & -> & _). destruct (P10_soft l [Did (EClear id)] (Clear id (Show e j')) N N') as (A & B); [constructor; [apply soft_did; exact I|constructor]|exact R|exact H10|]. split; auto.
  - (* show *) destruct HJ5 as (Hcb & _ & Hn). split; [|destruct j; try contradiction; exact I]. intros l1 x l2 i0 El Hid C. destruct H10 as (A & B). destruct (snoc_split _ _ _ _ _ El) as [(E1 & E2 & _)|(l3 & E1 & E2)]; subst.
    + eapply told_mono; eauto.
    + eapply told_mono; eauto.
  - (* acknowledge *) eapply P10_quiet; [eapply sends_soft; eauto| |exact R|exact H10]. destruct ok; [exact I|destruct j; exact I].
  - eapply P10_quiet; [constructor| |exact R|exact H10]. destruct j; exact I.
  - eapply P10_quiet; [constructor| |exact R|exact H10]. destruct HJ5; subst j; destruct (status_beq _ _); exact I.
  - eapply P10_quiet; [eapply sends_soft; eauto| |exact R|exact H10]. destruct ok; exact I.
  - eapply P10_quiet; [|exact I|exact R|exact H10]. destruct rt; [|constructor]. apply Forall_forall. intros x Hx. apply in_map_iff in Hx. destruct Hx as (i0 & <- & _). apply soft_did. exact I.
  - eapply P10_quiet; [constructor; [apply soft_did; exact I|constructor]| |exact R|exact H10]. destruct r; exact I.
  - eapply P10_quiet; [eapply sends_soft; eauto| |exact R|exact H10]. destruct ok; exact I.
Qed.

(** ** All runs, at any moment *)
Lemma net_facts rt n m l b : Run rt false (mkM NotConnected (fresh_session n m) 1 Idle) l b -> P9 rt l b /\ P10 l b.
Proof.
  intro R. set (P := fun l a => P9 rt l a /\ P10 l a /\ P1 l a /\ P5 l a /\ P8 rt l a).
  assert (K : P ([] ++ l) b).
  { apply (run_keeps rt false P) with (a := mkM NotConnected (fresh_session n m) 1 Idle); auto.
    - intros l0 a l1 b0 (A1 & A2 & A3 & A4 & A5) S. pose proof (proj1 A3) as Hk. assert (A1' : P9 rt (l0 ++ l1) b0) by (eapply P9_keeps; eauto).
      split; auto. split; [eapply P10_keeps; eauto|]. split; [eapply P1_keeps; eauto|]. split; [eapply P5_keeps; eauto|eapply P8_keeps; eauto].
    - split; [|split; [|split; [split; [|split; [apply each_nil|exact I]]|split; [split; [apply each_nil|exact I]|split; [apply each_nil|exact I]]]]].
      + intros _ N HN. cbn [m_conn m_ses m_job]. destruct (joint_split _ _ HN [] [] eq_refl) as (N0 & _ & _).
        assert (G0 : Inv rt [] NotConnected (fresh_session n m) Idle net0).
        { constructor; cbn; auto; try discriminate; try contradiction. constructor. intros id _. split; auto. split; [constructor|]. split; [constructor|reflexivity]. }
        remember (@nil tok) as k eqn:Ek. revert Ek. induction HN; intros Ek; auto; [destruct k; discriminate|]. subst k. eapply Inv_net; eauto.
      + intros _ N HN. split; [|exact I]. intros l1 x l2 id E. destruct l1; discriminate.
      + split; [split; constructor|]. split; [unfold id_ok; cbn; lia|exact I]. }
  destruct K as (A & B & _). auto.
Qed.

Definition aside (x : tok) : Prop := exists e, x = Did e /\ match e with EStore _ _ _ | EClear _ => True | _ => False end.
Lemma step_prefix rt a l1 b p q : mstep rt false a l1 b -> l1 = p ++ q -> q = [] \/ Forall aside p.
Proof.
  intros S E.
  assert (K1 : forall x, l1 = [x] -> q = [] \/ Forall aside p) by (intros x Ex; rewrite Ex in E; destruct p as [|y p]; [right; constructor|left]; cbn in E; assert (E2 : [] = p ++ q) by congruence; symmetry in E2; now apply app_eq_nil in E2).
  assert (K0 : l1 = [] -> q = [] \/ Forall aside p) by (intros Ex; rewrite Ex in E; symmetry in E; apply app_eq_nil in E; left; apply E).
  assert (Ks : forall p0 c ok c', sends p0 c ok l1 c' -> q = [] \/ Forall aside p) by (intros p0 c ok c' Hs; destruct (sends_tok _ _ _ _ _ Hs) as (x & Ex & _); eauto).
  destruct S; try (apply K0; reflexivity); try (eapply K1; reflexivity); try (eapply Ks; eauto; fail).
  - unfold kept_copy in H2. assert (L0 : l0 = [] \/ exists v, l0 = [Did (EStore (pm_id m) v ok)]) by (destruct rt; [destruct H2 as (v & _ & ->); eauto|destruct H2 as (_ & ->); auto]).
    assert (L1 : l = [] \/ exists x, l = [x]) by (destruct ok; [destruct (sends_tok _ _ _ _ _ H3) as (x & Ex & _); eauto|destruct H3 as (_ & -> & _); auto]).
    destruct L0 as [->|(v & ->)]; destruct L1 as [->|(x & ->)]; try (apply K0; reflexivity); try (eapply K1; reflexivity). destruct p as [|y p]; [right; constructor|]. cbn in E. assert (y = Did (EStore (pm_id m) v ok)) by congruence. assert (E2 : [x] = p ++ q) by congruence. subst y.
    destruct p as [|z p]; [right; constructor; [eexists; split; [reflexivity|exact I]|constructor]|left]. cbn in E2. assert (E3 : [] = p ++ q) by congruence. symmetry in E3. now apply app_eq_nil in E3.
  - right. destruct rt; [|symmetry in E; apply app_eq_nil in E; destruct E as (-> & _); constructor]. assert (F : Forall aside (p ++ q)) by (rewrite <- E; apply Forall_forall; intros x Hx; apply in_map_iff in Hx; destruct Hx as (id & <- & _); eexists; split; [reflexivity|exact I]).
    now apply Forall_app in F.
Qed.
Lemma run_prefix rt a k b : Run rt false a k b -> forall k1 k2, k = k1 ++ k2 -> exists l p c, k1 = l ++ p /\ Run rt false a l c /\ Forall aside p.
Proof.
  induction 1 as [a|a l1 b l2 d S R IH]; intros k1 k2 E.
  - symmetry in E. apply app_eq_nil in E. destruct E as (-> & ->). exists [], [], a. split; auto. split; constructor.
  - assert (D : (exists q, l1 = k1 ++ q /\ q <> []) \/ exists q, k1 = l1 ++ q /\ l2 = q ++ k2).
    { clear - E. revert k1 E. induction l1 as [|x l1 IH]; intros k1 E; [right; exists k1; auto|]. destruct k1 as [|y k1]; [left; exists (x :: l1); split; [auto|discriminate]|]. cbn in E. destruct (IH k1 ltac:(congruence)) as [(q & -> & Hq)|(q & -> & Hq)].
      - left. exists q. split; auto. cbn. congruence.
      - right. exists q. split; auto. cbn. congruence. }
    destruct D as [(q & E1 & Hq)|(q & -> & E2)].
    + destruct (step_prefix _ _ _ _ _ _ S E1) as [|F]; [contradiction|]. exists [], k1, a. split; auto. split; [constructor|auto].
    + destruct (IH _ _ E2) as (l & p & c & -> & R1 & F). exists (l1 ++ l), p, c. split; [now rewrite app_assoc|]. split; [eapply run_step; eauto|auto].
Qed.
Lemma nsteps_trans A B C : nsteps A B -> nsteps B C -> nsteps A C.
Proof. intros H1 H2. revert H1. induction H2 as [|B N1 C H2 IH S]; intro H1; [exact H1|]. exact (ns_step _ _ _ (IH H1) S). Qed.
Lemma aside_run p : Forall aside p -> forall N N', nrun N p N' -> nsteps N N'.
Proof.
  induction 1 as [|x p (e & -> & He) F IH]; intros N N' H; inversion H; subst; auto. eapply nsteps_trans; [eassumption|]. inversion H4; subst; try contradiction. auto.
Qed.
Lemma aside_joint p : Forall aside p -> forall l N, Joint (l ++ p) N -> Joint l N.
Proof.
  intros F l N H. destruct (joint_split _ _ H l p eq_refl) as (N0 & H1 & H2). apply aside_run in H2; auto. revert H1. clear - H2. induction H2 as [|A N1 C H2 IH S]; intro H1; [exact H1|]. exact (joint_net _ _ _ (IH H1) S).
Qed.
Lemma aside_published id p : Forall aside p -> published id p = [].
Proof. induction 1 as [|x p (e & -> & _) F IH]; auto. Qed.

Lemma exactly_once rt n m k b : Run rt false (mkM NotConnected (fresh_session n m) 1 Idle) k b -> one_session k -> no_dups k -> keeps_copies k ->
  (forall k1 k2 N id, k = k1 ++ k2 -> Joint k1 N -> id_ok id -> exists rest, published id k1 = passed_on id N ++ rest /\ (length rest <= 1)%nat) /\
  (forall N id, Joint k N -> id_ok id -> in_flight (sent (m_ses b)) id = false -> published id k = passed_on id N) /\
  (forall k1 x k2 N id, k = k1 ++ x :: k2 -> Joint k N -> id_ok id -> completes id x ->
     exists a c rest, k1 = a ++ Did (EPkt 112 (be16 id)) :: c /\ Forall (fun x => ~ comes x) c /\ passed_on id N = published id a ++ rest).
Proof.
  intros R O1 O2 O3. assert (O : ok_tok k) by (split; [exact O1|split; [exact O2|exact O3]]). split; [|split].
  - intros k1 k2 N id E HN Hid. destruct (run_prefix _ _ _ _ R _ _ E) as (l & p & c & -> & R1 & F). destruct (net_facts _ _ _ _ _ R1) as (H9 & _). rewrite E in O. apply ok_prefix, ok_prefix in O. apply aside_joint in HN; auto.
    specialize (H9 O N HN). pose proof (i_ph _ _ _ _ _ _ H9 id Hid) as Hp. rewrite published_app, (aside_published id p), app_nil_r by auto.
    assert (B : forall lo, begun2 id lo (n_up N) (Djob (m_job c) ++ n_down N) (holds_id (n_srv N) id) (published id l) (passed_on id N) -> exists rest, published id l = passed_on id N ++ rest /\ (length rest <= 1)%nat).
    { intros lo (_ & _ & _ & _ & [(_ & ->)|[(_ & m0 & -> & _)|(_ & -> & _)]]); [exists []|exists [m0]|exists []]; rewrite ?app_nil_r; auto. }
    assert (Bh : half2 id (n_up N) (Djob (m_job c) ++ n_down N) (holds_id (n_srv N) id) (published id l) (passed_on id N) -> exists rest, published id l = passed_on id N ++ rest /\ (length rest <= 1)%nat).
    { intros (_ & _ & _ & _ & ->). exists []. rewrite app_nil_r. auto. }
    assert (Bf : free2 id (n_up N) (Djob (m_job c) ++ n_down N) (holds_id (n_srv N) id) (published id l) (passed_on id N) -> exists rest, published id l = passed_on id N ++ rest /\ (length rest <= 1)%nat).
    { intros (_ & _ & _ & ->). exists []. rewrite app_nil_r. auto. }
    destruct (lookup _ _) as [[i q s]|]; [destruct q; auto; cbn [phase] in Hp; destruct (unack s); eauto|auto].
  - intros N id HN Hid Hf. destruct (net_facts _ _ _ _ _ R) as (H9 & _). specialize (H9 O N HN). pose proof (i_ph _ _ _ _ _ _ H9 id Hid) as Hp. rewrite lookup_flight in Hf. destruct (lookup _ _); [discriminate|]. now destruct Hp as (_ & _ & _ & Hp).
  - intros k1 x k2 N id E HN Hid Hx. destruct (net_facts _ _ _ _ _ R) as (_ & H10). destruct (H10 O N HN) as (T & _). exact (T _ _ _ _ E Hid Hx).
Qed.

(** ** Histories *)
Section Hist.
Variables (G : cfg) (n m : nat) (l : list call) (w : world) (s : st) (rs : list status) (w' : world) (s' : st) (t : list ev).
Hypotheses (H1 : legal G n m l w s) (H2 : g_big G = false) (H3 : all_fit G false l w s) (H4 : c_run_calls G l w s = Ret (Some rs, w') s' t).
Lemma history_once : exists k, Says t k /\
  Run (x_retr (s_ctx s)) false (mkM NotConnected (fresh_session n m) 1 Idle) k (mkM (x_status (s_ctx s')) (session_of n m s') (x_nextId (s_ctx s')) Idle) /\
  (one_session k -> no_dups k -> keeps_copies k ->
   (forall k1 k2 N id, k = k1 ++ k2 -> Joint k1 N -> id_ok id -> exists rest, published id k1 = passed_on id N ++ rest /\ (length rest <= 1)%nat) /\
   (forall N id, Joint k N -> id_ok id -> in_flight (sent (session_of n m s')) id = false -> published id k = passed_on id N)).
Proof.
  destruct (refinement _ _ _ _ _ _ _ _ _ _ _ H1 H2 H3 H4) as (k & S & R). exists k. split; auto. split; auto. intros O1 O2 O3. destruct (exactly_once _ _ _ _ _ R O1 O2 O3) as (A & B & _). auto.
Qed.
Lemma history_told : exists k, Says t k /\
  Run (x_retr (s_ctx s)) false (mkM NotConnected (fresh_session n m) 1 Idle) k (mkM (x_status (s_ctx s')) (session_of n m s') (x_nextId (s_ctx s')) Idle) /\
  (one_session k -> no_dups k -> keeps_copies k ->
   forall k1 x k2 N id, k = k1 ++ x :: k2 -> Joint k N -> id_ok id -> completes id x ->
     exists a c rest, k1 = a ++ Did (EPkt 112 (be16 id)) :: c /\ Forall (fun x => ~ comes x) c /\ passed_on id N = published id a ++ rest).
Proof.
  destruct (refinement _ _ _ _ _ _ _ _ _ _ _ H1 H2 H3 H4) as (k & S & R). exists k. split; auto. split; auto. intros O1 O2 O3. destruct (exactly_once _ _ _ _ _ R O1 O2 O3) as (_ & _ & C). exact C.
Qed.
End Hist.
