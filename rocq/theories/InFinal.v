(** Publishes from the server, end to end: at any moment of a history. *)
From Verif Require Import Base StateModel StateSpec StateHarness SerModel WireSpec SerHarness CoreModel CoreHarness ConcModel ConcHarness Machine MachSpec MachProofs MachProofs5 MachFacts MachFacts2 MachFinal NetProofs NetFinal InSpec InProofs InProofs2 InProofs3 InProofs4.

Lemma in_facts rt cn n m l b : Run rt cn (mkM NotConnected (fresh_session n m) 1 Idle) l b -> P12 l b.
Proof.
  intro R. set (P := fun l a => P12 l a /\ P1 l a /\ P5 l a /\ shape (m_job a)).
  assert (K : P ([] ++ l) b).
  { apply (run_keeps rt cn P) with (a := mkM NotConnected (fresh_session n m) 1 Idle); auto.
    - intros l0 a l1 b0 (A1 & A2 & A3 & A4) S. pose proof (proj1 A2) as Hk. split; [eapply P12_keeps; eauto|]. split; [eapply P1_keeps; eauto|]. split; [eapply P5_keeps; eauto|eapply shape_keeps; eauto].
    - split; [|split; [split; [|split; [apply each_nil|exact I]]|split; [split; [apply each_nil|exact I]|exact I]]].
      + intros N HN. cbn [m_conn m_ses m_job]. assert (G0 : Inv [] [] NotConnected (fresh_session n m) Idle inet0).
        { constructor; cbn; auto; try discriminate; try (intros; contradiction); try (intros; congruence). intro id. split; [cbn; lia|]. cbn. split; auto. split; auto. split; auto. split; auto. split; auto. constructor. }
        remember (@nil tok) as k eqn:Ek. revert Ek. induction HN; intros Ek; [exists []; exact G0|destruct k; discriminate|]. destruct (IHHN G0 Ek) as (gs & K). exists gs. eapply Inv_w; eauto.
      + split; [split; constructor|]. split; [unfold id_ok; cbn; lia|exact I]. }
  destruct K as (A & _). auto.
Qed.

Lemma step_prefix rt cn a l1 b p q : mstep rt cn a l1 b -> l1 = p ++ q -> q = [] \/ Forall aside p.
Proof.
  intros S E.
  assert (K1 : forall x, l1 = [x] -> q = [] \/ Forall aside p) by (intros x Ex; rewrite Ex in E; destruct p as [|y p]; [right; constructor|left]; cbn in E; assert (E2 : [] = p ++ q) by congruence; symmetry in E2; now apply app_eq_nil in E2).
  assert (K0 : l1 = [] -> q = [] \/ Forall aside p) by (intros Ex; rewrite Ex in E; symmetry in E; apply app_eq_nil in E; left; apply E).
  assert (Ks : forall p0 c ok c', sends p0 c ok l1 c' -> q = [] \/ Forall aside p) by (intros p0 c ok c' Hs; destruct (sends_tok _ _ _ _ _ Hs) as (x & Ex & _); eauto).
  destruct S; try (apply K0; reflexivity); try (eapply K1; reflexivity); try (eapply Ks; eauto; fail).
  - unfold kept_copy in H2. assert (L0 : l0 = [] \/ exists v, l0 = [Did (EStore (pm_id m) v ok)]) by (destruct rt; [destruct H2 as (v & _ & ->); eauto|destruct H2 as (_ & ->); auto]).
    assert (L1 : l = [] \/ exists x, l = [x]) by (destruct ok; [destruct (sends_tok _ _ _ _ _ H3) as (x & Ex & _); eauto|destruct H3 as (_ & -> & _); auto]).
    destruct L0 as [->|(v & ->)]; destruct L1 as [->|(x & ->)]; try (apply K0; reflexivity); try (eapply K1; reflexivity). destruct p as [|y p]; [right; constructor|]. cbn in E. assert (y = Did (EStore (pm_id m) v ok)) by congruence. assert (E2 : [x] = p ++ q) by congruence. subst y.
    destruct p as [|z p]; [right; constructor; [eexists; split; [reflexivity|exact I]|constructor]|left]. cbn in E2. assert (E3 : [] = p ++ q) by congruence. symmetry in E3. now apply app_eq_nil in E3.
  - right. destruct rt; [|symmetry in E; apply app_eq_nil in E; destruct E as (-> & _); constructor]. assert (F : Forall aside (p ++ q)) by (rewrite <- E; apply Forall_forall; intros x Hx; apply in_map_iff in Hx; destruct Hx as (id & <- & _); eexists; split; [reflexivity|exact I]).
    now apply Forall_app in F.
Qed.
Lemma run_prefix rt cn a k b : Run rt cn a k b -> forall k1 k2, k = k1 ++ k2 -> exists l p c, k1 = l ++ p /\ Run rt cn a l c /\ Forall aside p.
Proof.
  induction 1 as [a|a l1 b l2 d S R IH]; intros k1 k2 E.
  - symmetry in E. apply app_eq_nil in E. destruct E as (-> & ->). exists [], [], a. split; auto. split; constructor.
  - assert (D : (exists q, l1 = k1 ++ q /\ q <> []) \/ exists q, k1 = l1 ++ q /\ l2 = q ++ k2).
    { clear - E. revert k1 E. induction l1 as [|x l1 IH]; intros k1 E; [right; exists k1; auto|]. destruct k1 as [|y k1]; [left; exists (x :: l1); split; [auto|discriminate]|]. cbn in E. destruct (IH k1 ltac:(congruence)) as [(q & -> & Hq)|(q & -> & Hq)].
      - left. exists q. split; auto. cbn. congruence.
      - right. exists q. split; auto. cbn. congruence. }
    destruct D as [(q & E1 & Hq)|(q & -> & E2)].
    + destruct (step_prefix _ _ _ _ _ _ _ S E1) as [|F]; [contradiction|]. exists [], k1, a. split; auto. split; [constructor|auto].
    + destruct (IH _ _ E2) as (l & p & c & -> & R1 & F). exists (l1 ++ l), p, c. split; [now rewrite app_assoc|]. split; [eapply run_step; eauto|auto].
Qed.
Lemma wsteps_trans A B C : wsteps A B -> wsteps B C -> wsteps A C.
Proof. intros H1 H2. revert H1. induction H2 as [|B N1 C H2 IH S]; intro H1; [exact H1|]. exact (ws_step _ _ _ (IH H1) S). Qed.
Lemma aside_wrun p : Forall aside p -> forall N N', wrun N p N' -> wsteps N N'.
Proof.
  induction 1 as [|x p (e & -> & He) F IH]; intros N N' H; inversion H; subst; auto. eapply wsteps_trans; [eassumption|]. inversion H4; subst; try contradiction. auto.
Qed.
Lemma aside_linked p : Forall aside p -> forall l N, Linked (l ++ p) N -> Linked l N.
Proof.
  intros F l N H. destruct (linked_split _ _ H l p eq_refl) as (N0 & H1 & H2). apply aside_wrun in H2; auto. revert H1. clear - H2. induction H2 as [|A N1 C H2 IH S]; intro H1; [exact H1|]. exact (linked_net _ _ _ (IH H1) S).
Qed.
Lemma aside_delivered id p : Forall aside p -> delivered id p = [].
Proof. induction 1 as [|x p (e & -> & He) F IH]; auto. cbn. fold (delivered id p). rewrite IH. destruct e; try contradiction; reflexivity. Qed.

(** what the invariant says about deliveries *)
Lemma Inv_deliver gs l c se j N id : Inv gs l c se j N ->
  (exists ms rest, messages id N = ms ++ rest /\ (length rest <= 1)%nat /\ handed ms (delivered id l)) /\ (acknowledged id N -> handed (messages id N) (delivered id l)).
Proof.
  intros H. pose proof (v_ph _ _ _ _ _ _ H id) as (Hl & P). pose proof (v_pend _ _ _ _ _ _ H id) as Hp. unfold acknowledged.
  assert (F : forall X, owes id j = [] \/ Forall (eq Pubcomp) (owes id j) -> handed X (delivered id l ++ pend id j) -> handed X (delivered id l)).
  { intros X Ho Hx. assert (E : pend id j = []) by (destruct (pend id j); auto; destruct (Hp ltac:(discriminate)) as [K|K]; rewrite K in Ho; destruct Ho as [Ho|Ho]; try discriminate; inversion Ho; discriminate). rewrite E, app_nil_r in Hx. exact Hx. }
  destruct (flying (i_srv N) id) as [(m & [|])|].
  - destruct P as (_ & P2 & _ & P4 & _). assert (K : handed (messages id N) (delivered id l)) by (apply F; auto). split; auto. exists (messages id N), []. rewrite app_nil_r. split; auto.
  - split; [|intro C; exfalso; apply (C m); reflexivity]. destruct P as (ms & xs & p & A1 & A2 & A3 & A4 & A5 & A6 & A7 & A8 & A9 & A10 & A11).
    destruct (pend id j) as [|y pd] eqn:Ep.
    + rewrite app_nil_r in A2. rewrite A1, A2. destruct p as [|z p]; [exists ms, [m]; rewrite app_nil_r; auto|]. exists (ms ++ [m]), []. rewrite app_nil_r. split; auto. split; auto. constructor; auto; [discriminate|]. intro Q. specialize (A5 Q). cbn in *. lia.
    + assert (E0 : owes id j <> []) by (destruct (Hp ltac:(discriminate)) as [K|K]; rewrite K; discriminate).
      assert (E1 : pd = []) by (clear - Ep; revert pd Ep; induction j as [| | | id0 j IHj | e j IHj | | | | | |]; intros pd Ep; cbn [pend] in Ep; try discriminate; eauto; destruct (hands id (Did e)); [congruence|discriminate]). subst pd.
      assert (Pn : p <> []) by (specialize (A9 E0); destruct (eff id se j); [apply A11|contradiction]). destruct p as [|z p _] using rev_ind; [contradiction|]. rewrite app_assoc in A2. apply app_inj_tail in A2. destruct A2 as (A2 & ->). rewrite A2, A1.
      apply Forall_app in A4. destruct A4 as (A4 & _). destruct p as [|x0 p]; [exists ms, [m]; rewrite app_nil_r; auto|]. exists (ms ++ [m]), []. rewrite app_nil_r. split; auto. split; auto. constructor; auto; [discriminate|]. intro Q. specialize (A5 Q). rewrite app_length in A5. cbn in *. lia.
  - destruct P as (_ & P2 & _ & _ & _ & P6). assert (K : handed (messages id N) (delivered id l)) by (apply F; auto). split; auto. exists (messages id N), []. rewrite app_nil_r. split; auto.
Qed.
Lemma deliveries rt cn n m k b : Run rt cn (mkM NotConnected (fresh_session n m) 1 Idle) k b ->
  forall k1 k2 N id, k = k1 ++ k2 -> Linked k1 N ->
  (exists ms rest, messages id N = ms ++ rest /\ (length rest <= 1)%nat /\ handed ms (delivered id k1)) /\ (acknowledged id N -> handed (messages id N) (delivered id k1)).
Proof.
  intros R k1 k2 N id E HN. destruct (run_prefix _ _ _ _ _ R _ _ E) as (l & p & c & -> & R1 & F). apply aside_linked in HN; auto. destruct (in_facts _ _ _ _ _ _ R1 N HN) as (gs & H). rewrite delivered_app, (aside_delivered id p), app_nil_r by auto. eapply Inv_deliver; eauto.
Qed.

(** ** Histories *)
Lemma history_in G n m l w s rs w' s' t : legal G n m l w s -> g_big G = false -> all_fit G true l w s -> c_run_calls G l w s = Ret (Some rs, w') s' t ->
  exists k, Says t k /\
  Run (x_retr (s_ctx s)) true (mkM NotConnected (fresh_session n m) 1 Idle) k (mkM (x_status (s_ctx s')) (session_of n m s') (x_nextId (s_ctx s')) Idle) /\
  (same_session k -> forall k1 k2 N id, k = k1 ++ k2 -> Linked k1 N ->
   (exists ms rest, messages id N = ms ++ rest /\ (length rest <= 1)%nat /\ handed ms (delivered id k1)) /\
   (acknowledged id N -> handed (messages id N) (delivered id k1))).
Proof.
  intros H1 H2 H3 H4. destruct (refinement _ _ _ _ _ _ _ _ _ _ _ H1 H2 H3 H4) as (k & S & R). exists k. split; auto. split; auto. intros _. eapply deliveries; eauto.
Qed.
