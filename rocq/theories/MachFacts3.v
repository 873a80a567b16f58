(** A session that was discarded is not taken up again: proofs. *)
From Verif Require Import Base StateModel StateSpec StateHarness SerModel WireSpec SerHarness CoreModel CoreHarness Machine MachSpec MachSpec2 MachProofs MachFacts MachFacts2.

Definition kept (id : Z) (l : list tok) : Prop := since (was_stored id) (fun x => ~ cleans x) l.
Definition half_kept (id : Z) (l : list tok) : Prop := since (eq (Did (EPkt 80 (be16 id)))) (fun x => ~ cleans x) l.
Definition Q9 (l : list tok) (x : tok) : Prop :=
  used l -> match carries x with
            | Some (KAgain id _) => kept id l
            | Some (KAck Pubrel id) => half_kept id l
            | _ => True
            end.
Fixpoint J9 (l : list tok) (j : job) : Prop :=
  match j with
  | Got ty body => since (eq (Did (EPkt ty body))) (fun x => ~ cleans x) l
  | Clear _ j | Show _ j => J9 l j
  | Owe Pubrel id _ => half_kept id l
  | Fetch id | Again id _ => kept id l
  | _ => True
  end.
(** a clean CONNECT was sent, and nothing else since *)
Fixpoint offline (j : job) : Prop :=
  match j with
  | Idle | Failed | Got _ _ | Wait true _ => True
  | Clear _ j | Show _ j | Owe _ _ j => offline j
  | _ => False
  end.
Definition last_clean (l : list tok) : Prop := exists a x b, l = a ++ x :: b /\ cleans x /\ Forall (fun y => carries y = None) b.
Definition limbo (l : list tok) (a : mstate) : Prop := m_conn a = NotConnected /\ offline (m_job a) /\ last_clean l.
Notation dirty := (fun x => ~ cleans x).

Lemma used_app l l1 : used (l ++ l1) -> used l.
Proof. intros H a x b y c E. eapply (H a x b y (c ++ l1)). rewrite E, <- !app_assoc. cbn. now rewrite <- app_assoc. Qed.
Lemma did_dirty e : dirty (Did e).
Proof. intros (m & E & _). discriminate. Qed.
Lemma sends_dirty p c ok l c' : sends p c ok l c' -> (forall m, p <> KConnect m) -> Forall dirty l.
Proof. intros H K. destruct H; constructor; auto; intros (m & E & Hm); try discriminate. apply (K m). congruence. Qed.
Lemma J9_app l l1 j : Forall dirty l1 -> J9 l j -> J9 (l ++ l1) j.
Proof. intro H. induction j as [| |? ?|? ? IH|? ? IH|k ? ? IH|? ? ? IH|? ?| |?|? ?]; cbn [J9]; auto; try (intro K; apply since_app; auto; fail). destruct k; auto. intro K. apply since_app; auto. Qed.
Lemma last_clean_did l l1 : last_clean l -> Forall (fun y => carries y = None) l1 -> last_clean (l ++ l1).
Proof. intros (a0 & x & b0 & -> & Hx & Hb) H. exists a0, x, (b0 ++ l1). rewrite <- app_assoc. split; auto. split; auto. apply Forall_app. auto. Qed.
Lemma last_clean_connect l x : last_clean l -> connects x -> ~ used (l ++ [x]).
Proof.
  intros (a0 & y & b0 & -> & Hy & Hb) Hx U. specialize (U a0 y b0 x []). rewrite <- app_assoc in U. specialize (U eq_refl Hy Hx).
  apply Exists_exists in U. destruct U as (z & Hz & N). rewrite Forall_forall in Hb. apply N. auto.
Qed.
Lemma told_off l e j : J9 l (Show e j) = J9 l j.
Proof. reflexivity. Qed.

Section MF3.
Variables rt cn : bool.
Notation mstep := (mstep rt cn).
Definition S9 (l : list tok) (se : session) : Prop :=
  (rt = true -> forall id, In id (unacked (sent se)) -> kept id l) /\ (forall id, In id (half_done (sent se)) -> half_kept id l).
Definition P11 (l : list tok) (a : mstate) : Prop := used l -> J9 l (m_job a) /\ (S9 l (m_ses a) \/ limbo l a).
Lemma S9_app l l1 se : Forall dirty l1 -> S9 l se -> S9 (l ++ l1) se.
Proof. intros H (A & B). split; [intros R id K; apply since_app; [now apply A|auto]|intros id K; apply since_app; [now apply B|auto]]. Qed.
Lemma S9_op l se o : match o with Acked _ Pubrec OpReceive | Reserve _ _ => False | _ => True end -> S9 l se -> S9 l (snd (spec_step se o)).
Proof.
  intros Ho (A & B). split; [intros R id K|intros id K].
  - destruct (unacked_step _ _ _ K) as [H|(q & -> & _)]; auto. contradiction.
  - destruct (half_step _ _ _ K) as [H| ->]; auto. contradiction.
Qed.
(** a step that tells nothing and changes nothing of the session *)
Lemma P11_quiet l c c' se i i' j j' : P11 l (mkM c se i j) -> (J9 l j -> J9 l j') -> (c = NotConnected -> offline j -> c' = NotConnected /\ offline j') -> P11 l (mkM c' se i' j').
Proof.
  intros H A B U. destruct (H U) as (K1 & K2). split; [apply A, K1|]. destruct K2 as [K2|(K2 & K3 & K4)]; auto. right. destruct (B K2 K3). split; auto.
Qed.
Lemma P11_did l c c' se i i' j j' e : P11 l (mkM c se i j) -> (J9 (l ++ [Did e]) j -> J9 (l ++ [Did e]) j') -> (c = NotConnected -> offline j -> c' = NotConnected /\ offline j') ->
  P11 (l ++ [Did e]) (mkM c' se i' j').
Proof.
  intros H A B U. destruct (H (used_app _ _ U)) as (K1 & K2). assert (D : Forall dirty [Did e]) by (constructor; auto; apply did_dirty). split; [apply A, J9_app; auto|].
  destruct K2 as [K2|(K2 & K3 & K4)]; [left; now apply S9_app|]. right. destruct (B K2 K3). split; auto. split; auto. apply last_clean_did; auto.
Qed.
Lemma P11_sends p l c c' se i i' j j' ok l1 c1 c2 : sends p c1 ok l1 c2 -> (forall m, p <> KConnect m) -> P11 l (mkM c se i j) -> (J9 (l ++ l1) j -> J9 (l ++ l1) j') -> (c = NotConnected -> offline j -> False) ->
  P11 (l ++ l1) (mkM c' se i' j').
Proof.
  intros Hs Hp H A B U. destruct (H (used_app _ _ U)) as (K1 & K2). pose proof (sends_dirty _ _ _ _ _ Hs Hp) as D. split; [apply A, J9_app; auto|].
  destruct K2 as [K2|(K2 & K3 & K4)]; [left; now apply S9_app|]. destruct (B K2 K3).
Qed.
Lemma P11_op l c se i i' j j' o : match o with Acked _ Pubrec OpReceive | Reserve _ _ => False | _ => True end ->
  P11 l (mkM c se i j) -> (J9 l j -> J9 l j') -> (c = NotConnected -> offline j -> offline j') -> P11 l (mkM c (snd (spec_step se o)) i' j').
Proof.
  intros Ho H A B U. destruct (H U) as (K1 & K2). split; [apply A, K1|]. destruct K2 as [K2|(K2 & K3 & K4)]; [left; now apply S9_op|]. right. split; [exact K2|]. split; [now apply B|exact K4].
Qed.
Lemma P11_keeps l a l1 b : P11 l a -> P5 l a -> mstep a l1 b -> P11 (l ++ l1) b.
Proof.
  intros H (_ & H5) S. destruct S; cbn [m_job m_conn] in H5;
    try (eapply P11_sends; eauto; try discriminate; fail);
    try (apply (P11_did _ c c se i _ _ _ _ H); cbn; auto; fail); try (rewrite app_nil_r; apply (P11_quiet _ _ _ _ i _ _ _ H); cbn; auto; fail).
  - (* publish *)
    intro U. rewrite app_assoc in U |- *. destruct (H (used_app _ _ (used_app _ _ U))) as (K1 & [K2|(K2 & _)]); [|discriminate]. cbn [m_job m_ses] in *.
    assert (D : Forall dirty l0) by (unfold kept_copy in H3; destruct rt; [destruct H3 as (v & _ & ->); constructor; auto; apply did_dirty|destruct H3 as (_ & ->); constructor]).
    assert (D1 : Forall dirty l1) by (destruct ok; [eapply sends_dirty; eauto; discriminate|destruct H4 as (_ & -> & _); constructor]).
    assert (KS : S9 (l ++ l0) (snd r)).
    { pose proof (S9_app _ _ _ D K2) as (A & B). split; [intros R id Hi|intros id Hi].
      - destruct (unacked_step _ _ _ Hi) as [Hu|(q & E & _)]; auto. replace id with (pm_id m) by congruence. unfold kept_copy in H3. rewrite R in H3. destruct H3 as (v & _ & ->). apply since_new. exists v, ok. reflexivity.
      - destruct (half_step _ _ _ Hi) as [Hu|E]; auto. discriminate. }
    split; [rewrite <- app_assoc; apply J9_app; auto; now apply Forall_app|]. left. destruct ok1; [apply S9_op; [exact I|]|]; now apply S9_app.
  - rewrite app_nil_r. apply (P11_op _ _ _ i _ j); auto; exact I.
  - rewrite app_nil_r. apply (P11_quiet _ _ _ _ i _ _ _ H); cbn; auto. intros ->. auto.
  - apply (P11_did _ c c se i i _ (Got ty body) _ H); cbn; auto. intros _. now apply since_new.
  - rewrite app_nil_r. apply (P11_op _ _ _ i _ (Got ty body)); cbn; auto. intros _. unfold answer. destruct (pm_qos m); exact I.
  - rewrite app_nil_r. apply (P11_quiet _ _ _ _ i _ _ _ H); cbn; auto. intros _. unfold answer. destruct (pm_qos m); exact I.
  - (* an acknowledgement *)
    rewrite app_nil_r. intro U. destruct (H U) as (K1 & K2). cbn [m_job m_ses J9] in *.
    assert (KJ : J9 l told) by (unfold told; destruct k; cbn; auto).
    split; [destruct k; auto; destruct rt; auto|]. destruct K2 as [(A & B)|(C1 & C2 & C3)].
    + left. split; [intros R id0 Hi|intros id0 Hi].
      * destruct (unacked_step _ _ _ Hi) as [Hu|(q & E & _)]; auto. discriminate.
      * destruct (half_step _ _ _ Hi) as [Hu|E]; auto. assert (k = Pubrec) by congruence. assert (id0 = id) by congruence. subst k id0. exact K1.
    + right. split; auto. split; auto. cbn [m_job]. destruct k; auto; destruct rt; cbn; auto.
  - (* sending one *)
    eapply P11_sends; eauto; [discriminate| |discriminate]. intros _. cbn [J5] in H5. destruct H5 as [->| ->]; destruct ok; exact I.
  - rewrite app_nil_r. apply (P11_quiet _ _ _ _ i _ _ _ H); cbn; [intros _; destruct j; exact I|]. cbn [J5] in H5. destruct H5 as [->| ->]; cbn; auto.
  - rewrite app_nil_r. apply (P11_op _ _ _ i _ (Note k id j)); auto; [destruct k; exact I| |cbn; contradiction]. intros _. cbn [J5] in H5. destruct H5 as [->| ->]; destruct (status_beq _ _); exact I.
  - (* CONNECT *)
    intro U. destruct (H (used_app _ _ U)) as (K1 & K2). pose proof (sends_tok _ _ _ _ _ H1) as (x & -> & Ex & Hx). cbn [m_job m_ses] in *.
    split; [destruct ok; exact I|]. destruct K2 as [K2|(_ & _ & C)]; [|exfalso; apply (last_clean_connect _ x C); auto; exists m; auto].
    destruct (cm_clean m) eqn:Em.
    + destruct Hx as [(-> & -> & _)|Hx].
      * right. split; auto. split; [exact I|]. exists l, (Sent (KConnect m)), []. split; auto. split; [exists m; auto|constructor].
      * left. apply S9_app; auto. constructor; auto. intros (m' & -> & _). destruct Hx as [(E & _)|(E & _)]; discriminate.
    + left. apply S9_app; auto. constructor; auto. intros (m' & -> & Hm). cbn in Ex. congruence.
  - (* a new session *)
    intro U. split; [exact I|]. left. cbn [m_ses]. split; [intros _ id F|intros id F]; destruct F.
  - (* the old session *)
    rewrite app_nil_r. intro U. destruct (H U) as (K1 & [K2|(_ & C & _)]); [|destruct C]. split; [exact I|left; exact K2].
  - rewrite app_nil_r. intro U. destruct (H U) as (K1 & [K2|(_ & C & _)]); [|destruct C]. split; [now apply (proj2 K2)|left; exact K2].
  - rewrite app_nil_r. intro U. destruct (H U) as (K1 & [K2|(_ & C & _)]); [|destruct C]. split; [now apply (proj1 K2)|left; exact K2].
  - apply (P11_did _ c c se i _ _ _ _ H); cbn; [|contradiction]. intro K. destruct r; [exact K|exact I].
  - eapply P11_sends; eauto; [discriminate|intros _; destruct ok; exact I].
Qed.
Lemma Q9_keeps l a l1 b : P11 l a -> each Q9 l -> mstep a l1 b -> each Q9 (l ++ l1).
Proof.
  intros H A S. assert (B : forall p c ok c' l2, sends p c ok l2 c' -> (used l -> match p with KAgain id _ => kept id l | KAck Pubrel id => half_kept id l | _ => True end) -> each Q9 (l ++ l2)).
  { intros p c ok c' l2 Hs K. apply sends_tok in Hs. destruct Hs as (x & -> & E & _). apply each_snoc; auto. intro U. rewrite E. specialize (K U). destruct p; auto. }
  destruct S; rewrite ?app_nil_r; auto; try (apply each_snoc; auto; intro; exact I); try (eapply B; [eassumption|intro; exact I]).
  - rewrite app_assoc. assert (K : each Q9 (l ++ l0)) by (unfold kept_copy in H3; destruct rt; [destruct H3 as (v & _ & ->); apply each_snoc; auto; intro; exact I|destruct H3 as (_ & ->); now rewrite app_nil_r]).
    destruct ok; [|destruct H4 as (_ & -> & _); now rewrite app_nil_r]. apply sends_tok in H4. destruct H4 as (x & -> & E & _). apply each_snoc; auto. intro. rewrite E. exact I.
  - eapply B; eauto. intro U. destruct (H U) as (K & _). exact K.
  - apply each_app; auto. intros l0 x Hx. destruct rt; [|contradiction]. apply in_map_iff in Hx. destruct Hx as (id & <- & _). intro. exact I.
  - eapply B; eauto. intro U. destruct (H U) as (K & _). exact K.
Qed.
End MF3.
Lemma sessions_kept rt cn n m l b : Run rt cn (mkM NotConnected (fresh_session n m) 1 Idle) l b -> each Q9 l.
Proof.
  intro R. set (P := fun l a => P1 l a /\ P5 l a /\ P11 rt l a /\ each Q9 l).
  assert (K : P ([] ++ l) b).
  { apply (run_keeps rt cn P) with (a := mkM NotConnected (fresh_session n m) 1 Idle); auto.
    - intros l0 a l1 b0 (A1 & A2 & A3 & A4) S. split; [eapply P1_keeps; eauto|]. split; [eapply P5_keeps; eauto; apply A1|]. split; [eapply P11_keeps; eauto|eapply Q9_keeps; eauto].
    - split; [split; [|split; [apply each_nil|exact I]]; split; [split; constructor|]; split; [unfold id_ok; cbn; lia|exact I]|].
      split; [split; [apply each_nil|exact I]|]. split; [|apply each_nil]. intros _. split; [exact I|]. left. split; [intros _ id F|intros id F]; destruct F. }
  apply K.
Qed.
