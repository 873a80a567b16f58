(** Theorems about histories with the network of FullSpec.v. *)
From Verif Require Import Base StateModel StateSpec StateHarness SerModel WireSpec SerHarness CoreModel CoreHarness CoreSpec CoreProofs22 ConcModel ConcHarness ConcProofs5 ConcProofs7
  Machine MachSpec MachProofs MachProofs5 MachFacts MachFacts2 MachFinal NetSpec NetFinal OutSpec OutProofs4 OutFinal OutSeq OutHist InSpec WireProofs ByteSpec ByteProofs ByteProofs2 ByteProofs5 ByteFinal FullSpec FullProofs.

(** every stored copy is one of a publish *)
Definition Q10 (l : list tok) (x : tok) : Prop := match x with Did (EStore id v _) => copy_of id v | _ => True end.
Lemma sends_each10 p c ok l1 c' l : sends p c ok l1 c' -> each Q10 l -> each Q10 (l ++ l1).
Proof. intro H. apply MachFacts.sends_tok in H. destruct H as (x & -> & E & _). intros A. apply each_snoc; auto. destruct x; try discriminate; exact I. Qed.
Lemma P10_keeps rt cn l a l1 b : each Q10 l -> P5 l a -> mstep rt cn a l1 b -> each Q10 (l ++ l1).
Proof.
  intros H (_ & H5) S. destruct S; cbn [m_job] in *; rewrite ?app_nil_r; auto; try (apply each_snoc; [assumption|exact I]); try (eapply sends_each10; eauto; fail).
  - assert (K : each Q10 (l ++ l0)) by (unfold kept_copy in H3; destruct rt; [destruct H3 as (v & Hv & ->); apply each_snoc; [assumption|now apply copy_dup]|destruct H3 as (_ & ->); now rewrite app_nil_r]).
    rewrite app_assoc. destruct ok; [|destruct H4 as (_ & -> & _); now rewrite app_nil_r]. eapply sends_each10; eauto.
  - destruct H5 as (Hc & _ & Hn). apply each_snoc; [assumption|destruct e; try contradiction; exact I].
  - apply each_app; auto. intros l0 x Hx. destruct rt; [|contradiction]. apply in_map_iff in Hx. destruct Hx as (id & <- & _). exact I.
Qed.
Lemma run_copies rt cn n m l b : Run rt cn (mkM NotConnected (fresh_session n m) 1 Idle) l b -> each Q10 l.
Proof.
  intro R. set (P := fun l a => each Q10 l /\ P1 l a /\ P5 l a).
  assert (K : P ([] ++ l) b); [|apply K]. apply (run_keeps rt cn P) with (a := mkM NotConnected (fresh_session n m) 1 Idle); auto.
  - intros l0 a l1 b0 (A0 & A1 & A2) S. pose proof (proj1 A1) as Hk. split; [eapply P10_keeps; eauto|]. split; [eapply P1_keeps; eauto|eapply P5_keeps; eauto].
  - split; [apply each_nil|]. split; [split; [|split; [apply each_nil|exact I]]; split; [split; constructor|]; split; [unfold id_ok; cbn; lia|exact I]|].
    split; [apply each_nil|exact I].
Qed.
Lemma good_plain p : pkt_ok p -> (forall id bs, p <> KAgain id bs) -> good p.
Proof.
  intros H Hn. exists (plain p). split; [now apply plain_standard|]. split; [apply plain_bytes|]. split; [destruct p as [|[d [] r t i y]| | | | | |]; reflexivity|].
  intros v rep v' S. destruct p as [|[d [] r t i y]| | | | | |]; cbn [plain] in S; auto. inversion S; subst; try contradiction;
    match goal with K : reads_as _ _ |- _ => destruct K as (_ & K); cbn in K; subst end; cbn in *; try discriminate.
  apply v_publish0 with (m := mkPublish d Q0 r t i y); [split; [exact H|reflexivity]|reflexivity].
Qed.
Lemma good_again id m : pkt_ok (KPublish m) -> pm_qos m <> Q0 -> good (KAgain id (publish_packet m)).
Proof.
  intros H Hq. exists (KPublish m). split; [split; [exact H|cbn; congruence]|]. split; [reflexivity|]. split; [reflexivity|].
  intros v rep v' S. inversion S; subst; try contradiction; match goal with K : reads_as _ _ |- _ => destruct K as (K1 & K); cbn in K; subst end;
    [eapply v_publish0|eapply v_publish1|eapply v_publish2]; eauto; split; auto.
Qed.
Section Full.
Variables (rt : bool) (n m : nat) (k : list tok) (b : mstate).
Hypothesis R : Run rt false (mkM NotConnected (fresh_session n m) 1 Idle) k b.
Hypothesis O : keeps_copies k.
Lemma run_good : forall x p, In x k -> carries x = Some p -> good p.
Proof.
  intros x p Hx Ex. apply in_split in Hx. destruct Hx as (k1 & k2 & Ek). destruct (machine_facts _ _ _ _ _ _ R) as (F1 & _). specialize (F1 _ _ _ Ek).
  assert (L : legit k1 p) by (destruct x; try discriminate; cbn in Ex, F1; congruence). destruct L as (L1 & L2).
  destruct p; try (apply good_plain; [exact L1|discriminate]). destruct L2 as (_ & L2). apply in_split in L2. destruct L2 as (a & c & ->). rewrite <- app_assoc in Ek.
  destruct (O _ _ _ _ Ek) as (a1 & y & a2 & -> & (v & -> & <-) & _). rewrite <- app_assoc in Ek.
  destruct (run_copies _ _ _ _ _ _ R _ _ _ Ek) as (m' & -> & _ & _ & Hq & Hp). now apply good_again.
Qed.
Lemma full_joint k1 k2 F : k = k1 ++ k2 -> FJoint true k1 F -> exists B, BJoint k1 B /\ f_srv F = b_srv B.
Proof.
  intros E HF. destruct (full_sim _ _ HF) as (B & lv & junk & L & e & HB & S).
  - intros x p Hx. apply run_good. rewrite E. apply in_app_iff. auto.
  - exists B. split; auto. apply S.
Qed.
Variable Bz : Z.
Hypothesis F : Fed Bz k.
Hypothesis O1 : one_session k.
Hypothesis O2 : no_dups k.
Lemma full_once :
  (forall k1 k2 B id, k = k1 ++ k2 -> FJoint true k1 B -> id_ok id -> exists rest, published id k1 = f_passed_on id B ++ rest /\ (length rest <= 1)%nat) /\
  (forall B id, FJoint true k B -> id_ok id -> in_flight (sent (m_ses b)) id = false -> published id k = f_passed_on id B) /\
  (forall k1 x k2 B id, k = k1 ++ x :: k2 -> FJoint true k B -> id_ok id -> completes id x ->
     exists a c rest, k1 = a ++ Did (EPkt 112 (be16 id)) :: c /\ Forall (fun x => ~ comes x) c /\ f_passed_on id B = published id a ++ rest).
Proof.
  destruct (bytes_once _ _ _ _ _ _ R F O1 O2 O) as (A1 & A2 & A3). unfold f_passed_on. split; [|split].
  - intros k1 k2 B id E HB. destruct (full_joint _ _ _ E HB) as (B' & HB' & ->). eauto.
  - intros B id HB. destruct (full_joint k [] _ (eq_sym (app_nil_r k)) HB) as (B' & HB' & ->). eauto.
  - intros k1 x k2 B id E HB. destruct (full_joint k [] _ (eq_sym (app_nil_r k)) HB) as (B' & HB' & ->). apply (A3 _ _ _ _ _ E HB').
Qed.
Lemma full_least : undistk k -> f_delivered1 k (m_ses b) /\ f_confirmed1 k.
Proof.
  intro U. destruct (bytes_least _ _ _ _ _ _ R F O1 O2 O U) as ((A1 & A2) & A3). unfold f_delivered1, f_confirmed1, f_arrived. split; [split|].
  - intros k1 k2 B id E HB. destruct (full_joint _ _ _ E HB) as (B' & HB' & ->). eauto.
  - intros B id HB. destruct (full_joint k [] _ (eq_sym (app_nil_r k)) HB) as (B' & HB' & ->). eauto.
  - intros k1 x k2 B id E HB. destruct (full_joint k [] _ (eq_sym (app_nil_r k)) HB) as (B' & HB' & ->). apply (A3 _ _ _ _ _ E HB').
Qed.
End Full.

(** ** Histories *)
Section Hist.
Variables (G : cfg) (n m : nat) (l : list call) (w : world) (s : st) (rs : list status) (w' : world) (s' : st) (t : list ev).
Hypotheses (H1 : legal G n m l w s) (H2 : g_big G = false) (H4 : c_run_calls G l w s = Ret (Some rs, w') s' t) (H5 : careful G true l w s).
Lemma f_history_once : all_fit G false l w s -> exists k, Says t k /\ machine_run n m s s' k /\
  (one_session k -> no_dups k -> keeps_copies k ->
   (forall k1 k2 F id, k = k1 ++ k2 -> FJoint true k1 F -> id_ok id -> exists rest, published id k1 = f_passed_on id F ++ rest /\ (length rest <= 1)%nat) /\
   (forall F id, FJoint true k F -> id_ok id -> in_flight (sent (session_of n m s')) id = false -> published id k = f_passed_on id F) /\
   (forall k1 x k2 F id, k = k1 ++ x :: k2 -> FJoint true k F -> id_ok id -> completes id x ->
      exists a c rest, k1 = a ++ Did (EPkt 112 (be16 id)) :: c /\ Forall (fun x => ~ comes x) c /\ f_passed_on id F = published id a ++ rest)).
Proof.
  intros H3. destruct (history_fed _ _ _ _ _ _ _ _ _ _ _ H1 H2 H3 H5 H4) as (k & S & R & F). exists k. split; auto. split; auto. intros O1 O2 O3. exact (full_once _ _ _ _ _ R O3 _ F O1 O2).
Qed.
Lemma f_history_least : all_fit G false l w s -> undisturbed t -> exists k, Says t k /\ machine_run n m s s' k /\
  (one_session k -> no_dups k -> keeps_copies k -> f_delivered1 k (session_of n m s') /\ f_confirmed1 k).
Proof.
  intros H3 U. destruct (history_fed _ _ _ _ _ _ _ _ _ _ _ H1 H2 H3 H5 H4) as (k & S & R & F). exists k. split; auto. split; auto. intros O1 O2 O3. exact (full_least _ _ _ _ _ R O3 _ F O1 O2 (says_undisturbed _ _ S U)).
Qed.
End Hist.
Lemma f_alone_least G n m l s rs s' t : opened G n m s -> 3 <= g_maxvec G -> cbs_sound (s_env s) -> Forall call_sound l -> g_big G = false ->
  all_fit G false l (mkW false []) s -> careful1 G true l s -> run_calls G l s = Ret rs s' t ->
  exists k, Says t k /\ machine_run n m s s' k /\ (one_session k -> no_dups k -> keeps_copies k -> f_delivered1 k (session_of n m s') /\ f_confirmed1 k).
Proof.
  intros H1 H2 H3 H4 H5 H6 H7 E. destruct (opened_fresh _ _ _ _ _ _ _ _ H1 E) as (_ & U). destruct (alone_nest (nest G) l (mkW false []) s eq_refl eq_refl (Forall_nil _)) as (w' & E2).
  unfold bind in E2. rewrite nest_same, E in E2. apply (f_history_least (nest G) n m l (mkW false []) s rs w' s' t); auto.
  - split; [destruct G; exact H1|]. split; [exact H2|]. split; [exact H3|]. split; [exact H4|]. split; [reflexivity|constructor].
  - rewrite E2. cbn. now rewrite app_nil_r.
  - apply careful_alone; auto. constructor.
Qed.

(** Without send timeouts the condition on the network is met. *)
Lemma undelayed_strict k F : FJoint false k F -> no_timeouts k -> FJoint true k F /\ Forall (fun s => t_alive s && t_half s = false) (f_up F).
Proof.
  induction 1 as [|k F x F' HF IH S|k F F' HF IH S]; intro Hp.
  - split; [constructor|repeat constructor].
  - destruct IH as (J & U); [intros p C; apply (Hp p), in_app_iff; auto|]. assert (Hx : forall p, x <> Cut p false) by (intros p ->; apply (Hp p), in_app_iff; right; now left).
    destruct S; cbn [f_up] in *.
    + split; [eapply fjoint_client; [exact J|constructor]|]. apply Forall_app. split; auto.
    + destruct e; [|exfalso; eapply Hx; reflexivity]. split; [eapply fjoint_client; [exact J|econstructor; eauto]|]. apply Forall_app. split; auto.
    + apply Forall_app in U. destruct U as (U1 & U2). inversion U2 as [|? ? Us _]; subst. split; [eapply fjoint_client; [exact J|constructor; auto; intros _; exact Us]|].
      apply Forall_app. split; auto. constructor; auto. unfold give. destruct (t_alive s) eqn:Ea; cbn [t_alive t_half andb] in *; auto; try now rewrite Ea.
    + destruct e; [|exfalso; eapply Hx; reflexivity]. apply Forall_app in U. destruct U as (U1 & U2). inversion U2 as [|? ? Us _]; subst. split; [eapply fjoint_client; [exact J|econstructor; eauto; intros _; exact Us]|].
      apply Forall_app. split; auto. constructor; auto. unfold give. destruct (t_alive s) eqn:Ea; cbn [t_alive t_half andb negb] in *; auto; try now rewrite Ea.
    + split; [eapply fjoint_client; [exact J|now constructor]|auto].
    + split; [eapply fjoint_client; [exact J|now constructor]|auto].
  - destruct (IH Hp) as (J & U). split; [eapply fjoint_net; eauto|]. destruct S; cbn [f_up] in *; auto.
    + inversion U; subst. constructor; auto.
    + now inversion U.
    + apply Forall_app in U. destruct U as (U1 & U2). inversion U2; subst. apply Forall_app. split; auto.
Qed.
