(** QoS 1 publishes end to end: on one connection a publish is sent once. *)
From Verif Require Import Base StateModel StateSpec StateHarness SerModel WireSpec SerHarness SerProofs4 CoreModel CoreHarness Machine MachSpec MachProofs MachFacts MachFacts2 MachFinal NetSpec NetProofs NetProofs2 NetProofs3 NetProofs4 OutSpec OutProofs OutProofs2 OutProofs3.

Definition ins (x : tok) : Prop := exists bs, x = Did (EIn bs).
Definition marks (id : Z) (x : tok) : Prop := (exists v ok, x = Did (EStore id v ok)) \/ exists r, x = Did (ERetrieve id r).
Definition undistk (l : list tok) : Prop := forall l1 id r l2, l = l1 ++ Did (ERetrieve id r) :: l2 -> since ins (fun x => ~ marks id x) l1.
Lemma undistk_prefix l1 l2 : undistk (l1 ++ l2) -> undistk l1.
Proof. intros H k1 id r k2 E. apply (H k1 id r (k2 ++ l2)). rewrite E, <- app_assoc. reflexivity. Qed.
Lemma says_all t l (Y : tok -> Prop) : Says t l -> (forall x p, carries x = Some p -> Y x) -> Forall (fun e => is_send e = false -> Y (Did e)) t -> Forall Y l.
Proof.
  intros S HY. induction S; intro F; auto.
  - apply Forall_app in F. destruct F. constructor; auto. now apply (HY _ p).
  - apply Forall_app in F. destruct F. constructor; auto. now apply (HY _ p).
  - apply Forall_app in F. destruct F as (F1 & F2). inversion F2; subst. constructor; auto. now apply (HY _ p).
  - inversion F; subst. constructor; auto.
Qed.
Lemma says_undisturbed t l : Says t l -> undisturbed t -> undistk l.
Proof.
  intros S H l1 id r l2 E. destruct (says_back _ _ S _ _ E) as (a & c & Et & S1 & S2). destruct (says_head _ _ _ S2) as (t2 & -> & _ & _).
  destruct (H a id r t2 Et) as (b1 & e & b2 & -> & (bs & ->) & F). destruct (says_split _ _ S1 _ _ _ eq_refl eq_refl) as (k1 & k2 & -> & _ & S3). exists k1, (Did (EIn bs)), k2. split; auto. split; [exists bs; auto|].
  apply (says_all b2); auto.
  - intros x p K [(v & ok & ->)|(r0 & ->)]; discriminate.
  - eapply Forall_impl; [|exact F]. intros e (K1 & K2) _ [(v & ok & C)|(r0 & C)]; [apply K1; exists v, ok; congruence|apply (K2 r0); congruence].
Qed.

(** ** The machine *)
Definition Wt (l : list tok) (bs : list Z) : Prop := exists a m b, l = a ++ Sent (KConnect m) :: b /\ Forall (fun x => forall id, ~ sends_id id x) b /\
  (bs <> [] -> exists b1 y b2, b = b1 ++ Did (EIn y) :: b2 /\ Forall (fun x => ~ ins x) b2).
Definition Rs (X : list tok -> list tok -> Prop) (l : list tok) : Prop := exists a m b1 y b2, l = a ++ Sent (KConnect m) :: b1 ++ Did (EIn y) :: b2 /\
  Forall (fun x => forall id, ~ sends_id id x) b1 /\ Forall (fun x => ~ ins x) b2 /\ (forall id, Exists (sends_id id) b2 -> Exists (marks id) b2) /\ X b1 b2.
Definition RA (id : Z) (_ b2 : list tok) : Prop := Exists (marks id) b2 /\ Forall (fun x => ~ sends_id id x) b2.
Definition RT (_ _ : list tok) : Prop := True.
Section Net.
Variable rt : bool.
Notation mstep := (mstep rt false).
Definition ended (j : job) : Prop := match j with Idle | Owe _ _ Idle => True | _ => False end.
Definition settled (j : job) : Prop := match j with Idle | Failed | Got _ _ | Owe _ _ Idle | Note _ _ Idle => True | Show _ j | Clear _ (Show _ j) => ended j | _ => False end.
Definition J12 (l : list tok) (c : cstatus) (se : session) (j : job) : Prop :=
  match j with
  | Wait _ bs => c = NotConnected /\ Wt l bs
  | Resume | Owe _ _ Resume | Note _ _ Resume => rt = true -> Rs RT l
  | Fetch id => (rt = true -> Rs RT l) /\ in_flight (sent se) id = true
  | Again id _ => rt = true /\ Rs (RA id) l /\ in_flight (sent se) id = true
  | j => settled j
  end.
Definition P12 (l : list tok) (a : mstate) : Prop := no_dups l -> undistk l -> sent_once l /\ J12 l (m_conn a) (m_ses a) (m_job a).
Lemma since_snoc_no {T} (X Y : T -> Prop) l x : ~ X x -> since X Y (l ++ [x]) -> since X Y l.
Proof. intros H (a & y & b & E & Hy & F). destruct (snoc_split _ _ _ _ _ E) as [(-> & -> & _)|(b' & -> & ->)]; [contradiction|]. apply Forall_app in F. exists a, y, b'. split; auto. split; auto. apply F. Qed.
(** no stored copy is sent *)
Definition not_again_tok (x : tok) : Prop := forall id bs, x <> Sent (KAgain id bs).
Lemma once_snoc l x : sent_once l -> (forall id bs, x = Sent (KAgain id bs) -> unsent id l) -> sent_once (l ++ [x]).
Proof. intros H K k1 id bs k2 E. destruct (snoc_split _ _ _ _ _ E) as [(-> & -> & _)|(b' & -> & ->)]; [eauto|]. eapply H. reflexivity. Qed.
Lemma once_app l1 : forall l, sent_once l -> Forall not_again_tok l1 -> sent_once (l ++ l1).
Proof.
  induction l1 as [|x l1 IH]; intros l H F; [now rewrite app_nil_r|]. inversion F; subst. replace (l ++ x :: l1) with ((l ++ [x]) ++ l1) by (rewrite <- app_assoc; reflexivity). apply IH; auto. apply once_snoc; auto. intros id bs E. exfalso. now apply (H2 id bs).
Qed.
Lemma Rs_app X (X' : list tok -> list tok -> Prop) l l1 : Rs X l -> Forall (fun x => ~ ins x) l1 -> (forall id, Exists (sends_id id) l1 -> Exists (marks id) l1) -> (forall b1 b2, X b1 b2 -> X' b1 (b2 ++ l1)) -> Rs X' (l ++ l1).
Proof.
  intros (a & m & b1 & y & b2 & -> & A1 & A2 & A3 & A4) H1 H2 H3. exists a, m, b1, y, (b2 ++ l1). split; [rewrite <- !app_assoc; cbn [app]; rewrite <- !app_assoc; reflexivity|]. split; auto. split; [apply Forall_app; auto|]. split; auto.
  intros id K. apply Exists_app. apply Exists_app in K. destruct K as [K|K]; auto.
Qed.
Lemma Rs_weak X l : Rs X l -> Rs RT l.
Proof. intros (a & m & b1 & y & b2 & E & A1 & A2 & A3 & A4). exists a, m, b1, y, b2. repeat (split; [assumption|]). exact I. Qed.
Lemma Wt_app l bs l1 : Wt l bs -> Forall (fun x => forall id, ~ sends_id id x) l1 -> Forall (fun x => ~ ins x) l1 -> Wt (l ++ l1) bs.
Proof.
  intros (a & m & b & -> & A1 & A2) H1 H2. exists a, m, (b ++ l1). split; [now rewrite <- app_assoc|]. split; [apply Forall_app; auto|]. intro K. destruct (A2 K) as (b1 & y & b2 & -> & F). exists b1, y, (b2 ++ l1). split; [now rewrite <- app_assoc|]. apply Forall_app; auto.
Qed.
Lemma Wt_read l bs bs' : Wt l bs -> Wt (l ++ [Did (EIn bs')]) (bs ++ bs').
Proof.
  intros (a & m & b & -> & A1 & A2). exists a, m, (b ++ [Did (EIn bs')]). split; [now rewrite <- app_assoc|]. split; [apply Forall_app; split; [exact A1|constructor; [intros id []|constructor]]|]. intros _. exists b, bs', []. split; auto.
Qed.
Lemma fetch_free l id : since ins (fun x => ~ marks id x) l -> Rs RT l -> Rs (fun _ b2 => Forall (fun x => ~ sends_id id x) b2) l.
Proof.
  intros (a & x & b & E & Hx & F) (a0 & m & b1 & y & b2 & E2 & A1 & A2 & A3 & _). exists a0, m, b1, y, b2. split; auto. split; auto. split; auto. split; auto.
  assert (Fm : Forall (fun x => ~ marks id x) b2).
  { rewrite E in E2. replace (a0 ++ Sent (KConnect m) :: b1 ++ Did (EIn y) :: b2) with ((a0 ++ Sent (KConnect m) :: b1 ++ [Did (EIn y)]) ++ b2) in E2 by (rewrite <- !app_assoc; cbn [app]; rewrite <- !app_assoc; reflexivity).
    clear - E2 Hx F A2. revert b E2 F. induction b2 as [|z b2 IH] using rev_ind; intros b E2 F; [constructor|]. apply Forall_app in A2. destruct A2 as (A2 & A3). inversion A3; subst. destruct b as [|w b _] using rev_ind.
    - exfalso. rewrite app_assoc in E2. apply app_inj_tail in E2. destruct E2. subst z. contradiction.
    - rewrite app_comm_cons, !app_assoc in E2. apply app_inj_tail in E2. destruct E2 as (E2 & ->). apply Forall_app in F. destruct F as (F & F2). apply Forall_app. split; auto. apply (IH A2 b); auto. }
  apply Forall_forall. intros z Hz C. assert (K : Exists (sends_id id) b2) by (apply Exists_exists; eauto). apply A3, Exists_exists in K. destruct K as (w & Hw & K). rewrite Forall_forall in Fm. now apply (Fm w).
Qed.
Lemma Rs_unsent id l : Rs (RA id) l -> unsent id l.
Proof.
  intros (a & m & b1 & y & b2 & -> & A1 & A2 & A3 & (_ & A4)). exists a, (Sent (KConnect m)), (b1 ++ Did (EIn y) :: b2). split; auto. split; [exists m; auto|]. apply Forall_app. split; [eapply Forall_impl; [|exact A1]; intros x K; apply K|]. constructor; [intros []|exact A4].
Qed.
(** steps beside sending again *)
Definition tame (x : tok) : Prop := ~ ins x /\ forall id, ~ sends_id id x.
Lemma tame_again x : tame x -> not_again_tok x.
Proof. intros (_ & H) id bs ->. now apply (H id). Qed.
Lemma tame_none l1 : Forall tame l1 -> Forall (fun x => ~ ins x) l1 /\ Forall (fun x => forall id, ~ sends_id id x) l1 /\ (forall id, ~ Exists (sends_id id) l1).
Proof.
  intro F. split; [eapply Forall_impl; [|exact F]; intros x K; apply K|]. assert (F2 : Forall (fun x => forall id, ~ sends_id id x) l1) by (eapply Forall_impl; [|exact F]; intros x K; apply K). split; auto.
  intros id C. apply Exists_exists in C. destruct C as (x & Hx & C). rewrite Forall_forall in F2. now apply (F2 x Hx id).
Qed.
Lemma J12_tame l l1 c se j : Forall tame l1 -> J12 l c se j -> J12 (l ++ l1) c se j.
Proof.
  intros F. destruct (tame_none _ F) as (F1 & F2 & F3).
  assert (R : (rt = true -> Rs RT l) -> (rt = true -> Rs RT (l ++ l1))) by (intros H Hr; apply (Rs_app RT); auto; intros id C; exfalso; now apply (F3 id)).
  destruct j; cbn [J12]; auto.
  - destruct j; auto.
  - destruct j; auto.
  - intros (A & B). split; auto. apply Wt_app; auto.
  - intros (A & B). split; auto.
  - intros (A & B & C). split; auto. split; auto. eapply Rs_app; [exact B|auto|intros i C0; exfalso; now apply (F3 i)|]. intros b1 b2 (X1 & X2). split; [apply Exists_app; auto|apply Forall_app; split; auto]. eapply Forall_impl; [|exact F2]. auto.
Qed.
Lemma P12_tame l l1 a : Forall tame l1 -> P12 l a -> no_dups (l ++ l1) -> undistk (l ++ l1) -> sent_once (l ++ l1) /\ J12 (l ++ l1) (m_conn a) (m_ses a) (m_job a).
Proof.
  intros F H H1 H2. destruct H as (A & B); [intros x m Hx; apply H1; apply in_app_iff; auto|eapply undistk_prefix; eauto|]. split; [apply once_app; auto; eapply Forall_impl; [|exact F]; apply tame_again|now apply J12_tame].
Qed.
Lemma sends_tame p c ok l c' : sends p c ok l c' -> match p with KPublish m => pm_qos m = Q0 | KAgain _ _ => False | _ => True end -> Forall tame l.
Proof.
  intros S Hp. destruct (sends_tok _ _ _ _ _ S) as (x & -> & E & _). constructor; [|constructor]. split; [intros (bs & ->); discriminate|]. intros id C. destruct x as [q|q e|e]; cbn in C; try contradiction. assert (q = p) by (cbn in E; congruence). subst q. destruct p; try contradiction. now destruct C.
Qed.
Lemma did_tame e : match e with EIn _ => False | _ => True end -> Forall tame [Did e].
Proof. intro H. constructor; [|constructor]. split; [intros (bs & E); assert (e = EIn bs) by congruence; subst e; contradiction|intros id []]. Qed.
Lemma flight_reserve se id q i : in_flight (sent se) i = true -> in_flight (sent (snd (spec_step se (Reserve id q)))) i = true.
Proof.
  intro H. assert (D : ok_of (spec_step se (Reserve id q)) = Success \/ ok_of (spec_step se (Reserve id q)) <> Success) by (destruct (ok_of _); auto; right; discriminate).
  destruct D as [D|D]; [|now rewrite reserve_old]. assert (Q : q = Q0 \/ q <> Q0) by (destruct q; auto; right; discriminate). destruct Q as [->|Q]; [exact H|]. destruct (reserve_new _ _ _ Q D) as (_ & L). rewrite lookup_flight, L in *. destruct (i =? id); auto.
Qed.
Lemma flight_published se id q i : in_flight (sent se) i = true -> in_flight (sent (snd (spec_step se (Published id OpSend q)))) i = true.
Proof. intro H. pose proof (published_sim se id OpSend q i) as K. rewrite lookup_flight in *. destruct (lookup (sent se) i); [|discriminate]. destruct (lookup (sent (snd _)) i); auto. Qed.
Lemma J12_quiet l j c se : settled j -> J12 l c se j.
Proof. intros H. destruct j as [| | | | |k0 i0 j0|k0 i0 j0| | | |]; cbn in *; auto; try contradiction; destruct j0; auto; contradiction. Qed.
Lemma J12_c l c c' se j : match j with Wait _ _ => c' = c | _ => True end -> J12 l c se j -> J12 l c' se j.
Proof. intro H. destruct j; cbn; auto. now subst. Qed.
Lemma P12_keeps l a l1 b : P12 l a -> P1 l a -> P5 l a -> P8 rt l a -> mstep a l1 b -> P12 (l ++ l1) b.
Proof.
  intros HP H1 H5 (_ & HJ8) S Hd Hu. pose proof (P12_tame l l1 a) as PT. destruct H1 as (_ & _ & HJ1). destruct H5 as (_ & HJ5).
  destruct HP as (A & B); [intros x m Hx; apply Hd; apply in_app_iff; auto|eapply undistk_prefix; eauto|].
  assert (TN : Forall tame []) by constructor.
  assert (G : forall c se j, Forall tame l1 -> J12 l c se j -> sent_once (l ++ l1) /\ J12 (l ++ l1) c se j) by (intros c se j F K; split; [apply once_app; auto; eapply Forall_impl; [|exact F]; apply tame_again|now apply J12_tame]).
  assert (Gq : forall c se j, Forall tame l1 -> settled j -> sent_once (l ++ l1) /\ J12 (l ++ l1) c se j) by (intros c se j F K; apply G; auto; now apply J12_quiet).
  clear PT. destruct S; cbn [m_conn m_ses m_job m_next] in *;
    try (apply Gq; [solve [assumption|apply did_tame; exact I|eapply sends_tame; eauto; exact I]|solve [exact I|destruct j; exact I|destruct ok; exact I]]; fail).
  - (* publish, QoS 0 *) apply G; [eapply sends_tame; eauto|]. eapply J12_c; [|exact B]. destruct j; auto. now destruct B.
  - (* publish *)
    assert (K0 : Forall (fun x => ~ ins x) (l0 ++ l1) /\ Forall not_again_tok (l0 ++ l1) /\ (forall i, Exists (sends_id i) (l0 ++ l1) -> i = pm_id m /\ pm_dup m = false /\ (rt = true -> Exists (marks i) (l0 ++ l1)))).
    { assert (L0 : l0 = [] /\ rt <> true \/ exists v, l0 = [Did (EStore (pm_id m) v ok)]) by (unfold kept_copy in H2; destruct rt; [destruct H2 as (v & _ & ->); right; eauto|destruct H2 as (_ & ->); left; split; [auto|discriminate]]).
      assert (L1 : l1 = [] \/ exists x, l1 = [x] /\ carries x = Some (KPublish m)) by (destruct ok; [destruct (sends_tok _ _ _ _ _ H3) as (x & Ex & E & _); right; eauto|destruct H3 as (_ & -> & _); auto]).
      assert (T0 : Forall tame l0) by (destruct L0 as [(-> & _)|(v & ->)]; [constructor|apply did_tame; exact I]). destruct (tame_none _ T0) as (T1 & T2 & T3).
      assert (C1 : Forall (fun x => ~ ins x) l1) by (destruct L1 as [->|(x & -> & E)]; constructor; [|constructor]; intros (bs & ->); discriminate).
      assert (C2 : Forall not_again_tok l1) by (destruct L1 as [->|(x & -> & E)]; constructor; [|constructor]; intros i0 bs ->; discriminate).
      split; [apply Forall_app; auto|]. split; [apply Forall_app; split; auto; eapply Forall_impl; [|exact T0]; apply tame_again|]. intros i0 K. apply Exists_app in K. destruct K as [K|K]; [exfalso; now apply (T3 i0)|].
      destruct L1 as [->|(x & -> & E)]; [inversion K|]. assert (Ki : i0 = pm_id m) by (inversion K as [y z K2|y z K2]; subst; [destruct x as [q|q e|e]; cbn in K2; try contradiction; assert (q = KPublish m) by (cbn in E; congruence); subst q; symmetry; apply K2|inversion K2]).
      split; auto. split; [apply (Hd x m); auto; apply in_app_iff; right; apply in_app_iff; right; now left|]. intro Hr. destruct L0 as [(_ & C)|(v & ->)]; [contradiction|]. apply Exists_app. left. constructor. left. exists v, ok. now rewrite Ki. }
    destruct K0 as (K1 & K2 & K3). split; [apply once_app; auto|].
    assert (RR : (rt = true -> Rs RT l) -> (rt = true -> Rs RT (l ++ l0 ++ l1))) by (intros H4 Hr; apply (Rs_app RT); auto; intros i0 C; now apply K3).
    assert (Fl : forall i0, in_flight (sent se) i0 = true -> in_flight (sent (if ok1 then snd (spec_step (snd r) (Published (pm_id m) OpSend (pm_qos m))) else snd r)) i0 = true) by (intros i0 Hf; destruct ok1; [apply flight_published|]; now apply flight_reserve).
    destruct j as [| | | | |k0 i0 j0|k0 i0 j0| | | |]; cbn [J12] in *; auto.
    + destruct j0; auto.
    + destruct j0; auto.
    + destruct B. discriminate.
    + destruct B as (B1 & B2). auto.
    + destruct B as (B1 & B2 & B3). split; auto. split; auto. eapply Rs_app; [exact B2|auto|intros i0 C; apply K3; auto|]. intros b1 b2 (X1 & X2). split; [apply Exists_app; auto|apply Forall_app; split; auto]. apply Forall_forall. intros x Hx C.
      destruct (K3 id) as (E & Ed & _); [apply Exists_exists; eauto|]. subst id. destruct H1 as [H1|(_ & H1)]; [|congruence]. destruct (reserve_new _ _ _ H0 H1) as (Hn & _). rewrite lookup_flight, Hn in B3. discriminate.
  - apply G; [eapply sends_tame; eauto; exact I|]. eapply J12_c; [|exact B]. destruct j; auto. now destruct B.
  - apply G; [eapply sends_tame; eauto; exact I|]. eapply J12_c; [|exact B]. destruct j; auto. now destruct B.
  - apply G; [eapply sends_tame; eauto; exact I|]. eapply J12_c; [|exact B]. destruct j; auto. now destruct B.
  - apply G; [apply did_tame; exact I|exact B].
  - discriminate.
  - (* read *) split; [|exact I]. apply once_snoc; auto. discriminate.
  - (* acknowledgement *) apply Gq; auto. destruct k, rt; exact I.
  - (* clear *) destruct HJ5 as (e & j' & -> & _). apply G; [apply did_tame; exact I|]. exact B.
  - (* show *) destruct HJ5 as (Hcb & _ & Hn). apply Gq; [apply did_tame; destruct e; try contradiction; exact I|]. destruct j; try contradiction; try exact I. destruct j; try contradiction; exact I.
  - (* owe *) assert (T : Forall tame l0) by (eapply sends_tame; eauto; exact I). destruct ok; [|apply Gq; auto; destruct j; exact I]. apply G; auto.
  - (* note *) destruct (status_beq _ _); [|apply Gq; auto; destruct j; exact I]. apply G; auto. destruct HJ5; subst j; exact B.
  - (* connect *) assert (T : Forall tame l0) by (eapply sends_tame; eauto; exact I). destruct ok; [|apply Gq; auto; exact I]. destruct (sends_tok _ _ _ _ _ H0) as (x & -> & E & D). destruct D as [(-> & _)|[(_ & C & _)|(_ & C & _)]]; try discriminate.
    split; [apply once_app; auto; constructor; [discriminate|constructor]|]. split; auto. exists l, m, []. split; auto. split; [constructor|]. intro C. now elim C.
  - (* read *) destruct B as (B1 & B2). split; [apply once_snoc; auto; discriminate|]. split; auto. now apply Wt_read.
  - split; [apply once_snoc; auto; discriminate|exact I].
  - apply Gq; [|exact I]. destruct rt; [|constructor]. apply Forall_forall. intros x Hx. apply in_map_iff in Hx. destruct Hx as (i0 & <- & _). assert (K : Forall tame [Did (EClear i0)]) by (apply did_tame; exact I). now inversion K.
  - (* old session *) destruct B as (B1 & (a & m & b & -> & A1 & A2)). apply G; auto. intro Hr. destruct (A2 ltac:(discriminate)) as (b1 & y & b2 & -> & F). apply Forall_app in A1. destruct A1 as (A1 & A3). apply Forall_inv_tail in A3.
    exists a, m, b1, y, b2. split; auto. split; auto. split; auto. split; [|exact I]. intros i0 K. exfalso. apply Exists_exists in K. destruct K as (x & Hx & K). rewrite Forall_forall in A3. now apply (A3 x Hx i0).
  - apply G; auto.
  - apply G; auto. split; auto. apply unacked_in in H0. destruct H0 as (f & Hf & <- & _). unfold in_flight. apply existsb_exists. exists f. split; auto. apply Z.eqb_refl.
  - (* fetch *) destruct r as [bs|]; [|apply Gq; [apply did_tame; exact I|exact I]]. destruct B as (B1 & B2). cbn in HJ8. specialize (B1 HJ8). split; [apply once_snoc; auto; discriminate|]. split; auto. split; auto.
    pose proof (fetch_free l id (Hu l id (Some bs) [] eq_refl) B1) as K. eapply Rs_app; [exact K| | |].
    + constructor; [|constructor]. intros (b0 & C). discriminate.
    + intros i0 C. inversion C as [x y C0|x y C0]; subst; [contradiction|inversion C0].
    + intros b1 b2 X. split; [apply Exists_app; right; constructor; right; eauto|]. apply Forall_app. split; auto.
  - (* again *) destruct B as (B1 & B2 & B3). destruct (sends_tok _ _ _ _ _ H) as (x & -> & E & D). split.
    + apply once_snoc; auto. intros i0 b0 ->. assert (i0 = id) by (cbn in E; congruence). subst i0. now apply Rs_unsent.
    + destruct ok; [|exact I]. destruct D as [(-> & _)|[(_ & C & _)|(_ & C & _)]]; try discriminate. intros _. destruct B2 as (a & m & b1 & y & b2 & -> & A1 & A2 & A3 & (A4 & A5)). exists a, m, b1, y, (b2 ++ [Sent (KAgain id bs)]).
      split; [rewrite <- !app_assoc; cbn [app]; rewrite <- !app_assoc; reflexivity|]. split; auto. split; [apply Forall_app; split; auto; constructor; [intros (b0 & C); discriminate|constructor]|]. split; [|exact I].
      intros i0 C. apply Exists_app. left. apply Exists_app in C. destruct C as [C|C]; auto. inversion C as [x z C0|x z C0]; subst; [|inversion C0]. cbn in C0. now subst i0.
Qed.
End Net.
