(** What the machine of Machine.v does: proofs. *)
From Verif Require Import Base StateModel StateSpec StateHarness SerModel WireSpec SerHarness CoreModel CoreHarness Machine MachSpec MachProofs.

Definition each (Q : list tok -> tok -> Prop) (l : list tok) : Prop := forall l1 x l2, l = l1 ++ x :: l2 -> Q l1 x.
Lemma each_nil Q : each Q [].
Proof. intros [|y l1] x l2 H; discriminate. Qed.
Lemma snoc_split {T} (l l1 l2 : list T) x y : l ++ [y] = l1 ++ x :: l2 -> l = l1 /\ y = x /\ l2 = [] \/ exists l3, l2 = l3 ++ [y] /\ l = l1 ++ x :: l3.
Proof.
  destruct l2 as [|z l2] using rev_ind; intro E.
  - apply app_inj_tail in E. left. now destruct E.
  - right. exists l2. replace (l1 ++ x :: l2 ++ [z]) with ((l1 ++ x :: l2) ++ [z]) in E by (rewrite <- app_assoc; reflexivity). apply app_inj_tail in E. destruct E as (E & <-). auto.
Qed.
Lemma each_snoc Q l x : each Q l -> Q l x -> each Q (l ++ [x]).
Proof. intros H K l1 y l2 E. destruct (snoc_split _ _ _ _ _ E) as [(-> & -> & _)|(l3 & _ & E2)]; eauto. Qed.
Lemma each_imp (Q Q' : list tok -> tok -> Prop) l : (forall l1 x, Q l1 x -> Q' l1 x) -> each Q l -> each Q' l.
Proof. intros H K l1 x l2 E. eauto. Qed.

Lemma since_app {T} (X Y : T -> Prop) l l1 : since X Y l -> Forall Y l1 -> since X Y (l ++ l1).
Proof. intros (a & x & b & -> & Hx & Hb) H. exists a, x, (b ++ l1). rewrite <- app_assoc. split; [reflexivity|]. split; auto. now apply Forall_app. Qed.
Lemma since_new {T} (X Y : T -> Prop) l x : X x -> since X Y (l ++ [x]).
Proof. intro H. exists l, x, []. auto. Qed.
Lemma since_imp {T} (X X' Y Y' : T -> Prop) l : (forall x, X x -> X' x) -> (forall x, Y x -> Y' x) -> since X Y l -> since X' Y' l.
Proof. intros H K (a & x & b & -> & Hx & Hb). exists a, x, b. split; auto. split; auto. eapply Forall_impl; eauto. Qed.

Section MF.
Variables rt cn : bool.
Notation mstep := (mstep rt cn).
Notation Run := (Run rt cn).
Lemma run_keeps (P : list tok -> mstate -> Prop) : (forall l a l1 b, P l a -> mstep a l1 b -> P (l ++ l1) b) ->
  forall a l b, Run a l b -> forall l0, P l0 a -> P (l0 ++ l) b.
Proof.
  intros H a l b R. induction R; intros l0 K; [now rewrite app_nil_r|]. rewrite app_assoc. eauto.
Qed.
Lemma sends_tok p c ok l c' : sends p c ok l c' -> exists x, l = [x] /\ carries x = Some p /\
  (x = Sent p /\ ok = true /\ c' = c \/ x = Cut p false /\ ok = false /\ c' = c \/ x = Cut p true /\ ok = false /\ c' = broke c).
Proof. destruct 1; eexists; (split; [reflexivity|]); cbn; auto 8. Qed.

(** ** Packets, acknowledgements *)
Definition waiting (cl : bool) (bs : list Z) (l : list tok) : Prop :=
  exists a m b, l = a ++ Sent (KConnect m) :: b /\ cm_clean m = cl /\ reads b = bs /\ Forall (fun x => ~ comes x /\ ~ connects x) b.
Lemma resuming_waiting l : resuming l <-> waiting false [32; 2; 1; 0] l.
Proof. reflexivity. Qed.
Lemma reads_app l1 l2 : reads (l1 ++ l2) = reads l1 ++ reads l2.
Proof. apply flat_map_app. Qed.
Lemma waiting_app cl bs l x : waiting cl bs l -> ~ comes x -> ~ connects x -> waiting cl (bs ++ reads [x]) (l ++ [x]).
Proof.
  intros (a & m & b & -> & H1 & H2 & H3) K1 K2. exists a, m, (b ++ [x]). rewrite <- app_assoc. split; [reflexivity|]. split; auto.
  split; [rewrite reads_app; now f_equal|]. apply Forall_app. auto.
Qed.
Definition is_cb (e : ev) : Prop := match e with ECb _ _ _ _ _ => True | _ => False end.
Fixpoint J1 (l : list tok) (j : job) : Prop :=
  match j with
  | Idle | Failed => True
  | Got ty body => since (eq (Did (EPkt ty body))) quiet l
  | Clear _ j => J1 l j
  | Show e j => is_cb e /\ J1 l j
  | Owe k id j => match j with Resume => k = Pubrel /\ resuming l | _ => j = Idle /\ since (asked k id) quiet l end
  | Note k id j => match j with Resume => resuming l | _ => j = Idle end
  | Wait cl bs => waiting cl bs l
  | Resume | Fetch _ => resuming l
  | Again id bs => resuming l /\ In (Did (ERetrieve id (Some bs))) l
  end.
Definition legit (l : list tok) (p : cpkt) : Prop :=
  pkt_ok p /\ match p with
  | KAck k id => since (asked k id) quiet l \/ k = Pubrel /\ resuming l
  | KAgain id bs => resuming l /\ In (Did (ERetrieve id (Some bs))) l
  | _ => True
  end.
Definition Q1 (l : list tok) (x : tok) : Prop :=
  match x with
  | Sent p | Cut p _ => legit l p
  | Did (ERetrieve _ _) => resuming l
  | _ => True
  end.
Definition P1 (l : list tok) (a : mstate) : Prop := mok a /\ each Q1 l /\ J1 l (m_job a).
Definition other (x : tok) : Prop := quiet x /\ ~ connects x /\ reads [x] = [].
Lemma J1_other l x j : other x -> J1 l j -> J1 (l ++ [x]) j.
Proof.
  intros (H1 & H2 & H3).
  assert (W : forall cl bs, waiting cl bs l -> waiting cl bs (l ++ [x])) by (intros cl bs K; rewrite <- (app_nil_r bs), <- H3; apply waiting_app; auto; apply H1).
  assert (R : resuming l -> resuming (l ++ [x])) by apply W.
  assert (S : forall (X : tok -> Prop), since X quiet l -> since X quiet (l ++ [x])) by (intros; apply since_app; auto).
  induction j; cbn [J1]; auto.
  - intros (K1 & K2). auto.
  - destruct j; intros (K1 & K2); auto.
  - destruct j; auto.
  - intros (K1 & K2). split; auto. apply in_app_iff. auto.
Qed.
Lemma other_pkt x p : carries x = Some p -> match p with KAck _ _ | KConnect _ => False | _ => True end -> other x.
Proof.
  intros H K. destruct x; cbn in H; try discriminate; (assert (p0 = p) by congruence); subst p0; (split; [split|split]).
  all: try reflexivity; try (intros (u & v & E); discriminate).
  all: try (intros (k & i & E); cbn in E; assert (p = KAck k i) by congruence; subst p; contradiction).
  all: try (intros (m & E); cbn in E; assert (p = KConnect m) by congruence; subst p; contradiction).
Qed.
Lemma other_did e : match e with EPkt _ _ | EIn _ => False | _ => True end -> other (Did e).
Proof.
  intro H. split; [split|split]; try (intros (u & E); discriminate); try (intros (u & v & E); discriminate).
  - intros (u & v & E). assert (e = EPkt u v) by congruence. subst e. contradiction.
  - destruct e; try reflexivity. contradiction.
Qed.
Lemma ack_waiting cl bs l x p : carries x = Some p -> match p with KConnect _ => False | _ => True end -> waiting cl bs l -> waiting cl bs (l ++ [x]).
Proof.
  intros E H K. rewrite <- (app_nil_r bs). replace [] with (reads [x]); [apply waiting_app; auto|destruct x; try discriminate; reflexivity].
  - intros (u & v & E'). subst x. discriminate.
  - intros (m & E'). assert (p = KConnect m) by congruence. subst p. contradiction.
Qed.
Lemma P1_app l a l1 b : P1 l a -> mstep a l1 b -> each Q1 (l ++ l1) -> J1 (l ++ l1) (m_job b) -> P1 (l ++ l1) b.
Proof. intros (H1 & _ & _) S H2 H3. split; [eapply mstep_ok; eauto|auto]. Qed.

Ltac split_sends H := apply sends_tok in H; let x := fresh "x" in let E := fresh "Ex" in let Ex2 := fresh "Ey" in
  destruct H as (x & -> & E & Ex2).
Lemma Q1_carry l x p : carries x = Some p -> legit l p -> Q1 l x.
Proof. destruct x; cbn; try discriminate; congruence. Qed.
Lemma P1_keeps l a l1 b : P1 l a -> mstep a l1 b -> P1 (l ++ l1) b.
Proof.
  intros HP S. pose proof HP as (Hk & HQ & HJ). apply (P1_app _ _ _ _ HP S).
  - destruct S; cbn [m_job m_ses m_next] in *; rewrite ?app_nil_r; auto.
    1,3,4,5,6: split_sends H0 || split_sends H1 || split_sends H; apply each_snoc; auto; eapply Q1_carry; eauto; split; auto; try exact I.
    + rewrite app_assoc. assert (HQ0 : each Q1 (l ++ l0)) by (unfold kept_copy in H2; destruct rt; [destruct H2 as (v & _ & ->); apply each_snoc; auto; exact I|destruct H2 as (_ & ->); now rewrite app_nil_r]).
      destruct ok; [split_sends H3; apply each_snoc; auto; eapply Q1_carry; eauto; split; auto; exact I|destruct H3 as (_ & -> & _); now rewrite app_nil_r].
    + apply each_snoc; [assumption|exact I].
    + apply each_snoc; [assumption|exact I].
    + apply each_snoc; [assumption|exact I].
    + apply each_snoc; [assumption|exact I].
    + apply each_snoc; [assumption|exact I].
    + apply each_snoc; [assumption|exact I].
    + apply each_snoc; auto. destruct HJ as (Hc & _). destruct e; try contradiction. exact I.
    + split_sends H. apply each_snoc; auto. eapply Q1_carry; eauto. split; [apply Hk|]. cbn [J1] in HJ. destruct j; try (destruct HJ as (HJ1 & HJ2); try discriminate; auto; fail).
    + split_sends H0. apply each_snoc; auto. eapply Q1_carry; eauto. split; [assumption|exact I].
    + apply each_snoc; [assumption|exact I].
    + apply each_snoc; [assumption|exact I].
    + apply each_snoc; [assumption|exact I].
    + destruct rt; [|now rewrite app_nil_r]. induction (unacked (sent se)) as [|i0 ids IH] using rev_ind; [now rewrite app_nil_r|].
      rewrite map_app, app_assoc. apply each_snoc; auto. exact I.
    + apply each_snoc; auto. 
    + split_sends H. apply each_snoc; auto. eapply Q1_carry; eauto. split; [exact I|exact HJ].
  - destruct S; cbn [m_job m_ses m_next] in *; rewrite ?app_nil_r; auto; try exact I.
    + split_sends H1. apply J1_other; auto. eapply other_pkt; eauto. exact I.
    + rewrite app_assoc. assert (HJ0 : J1 (l ++ l0) j) by (unfold kept_copy in H2; destruct rt; [destruct H2 as (v & _ & ->); apply J1_other; auto; now apply other_did|destruct H2 as (_ & ->); now rewrite app_nil_r]).
      destruct ok; [split_sends H3; apply J1_other; auto; eapply other_pkt; eauto; exact I|destruct H3 as (_ & -> & _); now rewrite app_nil_r].
    + split_sends H0. apply J1_other; auto. eapply other_pkt; eauto. exact I.
    + split_sends H0. apply J1_other; auto. eapply other_pkt; eauto. exact I.
    + split_sends H. apply J1_other; auto. eapply other_pkt; eauto. exact I.
    + apply J1_other; auto. now apply other_did.
    + now apply since_new.
    + cbn. auto.
    + cbn. split; [exact I|]. split; auto. cbn in HJ. eapply since_imp; [| |exact HJ]; auto. intros x <-. exists ty, body. split; auto.
      unfold answer. destruct (pm_qos m) eqn:E; try congruence; cbn; exists m; auto.
    + cbn. split; auto. eapply since_imp; [| |exact HJ]; auto. intros x <-. exists ty, body. split; auto.
      unfold answer. destruct (pm_qos m) eqn:E; try congruence; cbn; exists m; auto.
    + assert (K : J1 l told).
      { unfold told. cbn [J1]. split; [exact I|]. destruct k; cbn [reply_to]; try exact I; (split; [reflexivity|]); (eapply since_imp; [| |exact HJ]; auto; intros x <-; eexists _, _; split; [reflexivity|]; cbn; auto). }
      destruct k; auto; destruct rt; auto.
    + cbn. auto.
    + cbn. auto.
    + cbn. auto.
    + apply J1_other; auto. now apply other_did.
    + destruct HJ as (Hc & HJ). apply J1_other; auto. apply other_did. destruct e; try contradiction. exact I.
    + split_sends H. cbn [J1] in HJ. assert (Hj : j = Idle \/ j = Resume /\ resuming l) by (destruct j; destruct HJ as (HJ1 & HJ2); try discriminate; auto).
      destruct Hj as [->|(-> & Hj)]; destruct ok; cbn; auto. apply (ack_waiting false _ _ _ _ Ex); [exact I|exact Hj].
    + destruct j; exact I.
    + assert (Hj : j = Idle \/ j = Resume /\ resuming l) by (cbn [J1] in HJ; destruct j; try discriminate; auto).
      destruct Hj as [->|(-> & Hj)]; destruct (status_beq _ _); cbn; auto.
    + split_sends H0. destruct ok; [|exact I]. destruct Ey as [(-> & _)|[(_ & F & _)|(_ & F & _)]]; try discriminate. exists l, m, []. auto.
    + cbn [J1] in *. change bs' with (reads [Did (EIn bs')] ) at 2 || idtac. replace (bs ++ bs') with (bs ++ reads [Did (EIn bs')]) by (cbn; now rewrite app_nil_r).
      apply waiting_app; auto; [intros (u & v & E)|intros (u & E)]; discriminate.
    + cbn [J1]. auto.
    + destruct r; [|exact I]. cbn [J1] in *. split; [|apply in_app_iff; right; left; reflexivity].
      rewrite resuming_waiting in *. rewrite <- (app_nil_r [32; 2; 1; 0]). apply (waiting_app _ _ _ (Did (ERetrieve id (Some l0)))); auto; [intros (u & v & E)|intros (u & E)]; discriminate.
    + split_sends H. cbn [J1] in HJ. destruct ok; [|exact I]. apply (ack_waiting false _ _ _ _ Ex); [exact I|apply HJ].
Qed.

(** ** Callbacks *)
Definition nocb (x : tok) : Prop := ~ comes x /\ ~ shown x.
Definition Q5 (l : list tok) (x : tok) : Prop :=
  match x with Did (ECb ty body id d r) => tells ty body id d r /\ since (eq (Did (EPkt ty body))) nocb l | _ => True end.
Definition noshow (j : job) : Prop := match j with Idle | Failed | Resume => True | Owe _ _ j | Note _ _ j => j = Idle \/ j = Resume | _ => False end.
Fixpoint J5 (l : list tok) (j : job) : Prop :=
  match j with
  | Got ty body => since (eq (Did (EPkt ty body))) nocb l
  | Clear _ j => exists e j', j = Show e j' /\ J5 l j
  | Show e j => is_cb e /\ Q5 l (Did e) /\ noshow j
  | Owe _ _ j | Note _ _ j => j = Idle \/ j = Resume
  | _ => True
  end.
Definition P5 (l : list tok) (a : mstate) : Prop := each Q5 l /\ J5 l (m_job a).
Lemma noshow_J5 l j : noshow j -> J5 l j.
Proof. destruct j; cbn; auto; contradiction. Qed.
Lemma noshow_give_up j : noshow (give_up j).
Proof. destruct j; exact I. Qed.
Lemma Q5_nocb l x e : nocb x -> Q5 l (Did e) -> Q5 (l ++ [x]) (Did e).
Proof. intros H. destruct e; cbn; auto. intros (K1 & K2). split; auto. apply since_app; auto. Qed.
Lemma J5_nocb l x j : nocb x -> J5 l j -> J5 (l ++ [x]) j.
Proof.
  intro H. induction j; cbn [J5]; auto.
  - intro K. apply since_app; auto.
  - intros (e & j' & E & K). eauto.
  - intros (K1 & K2 & K3). split; auto. split; auto. now apply Q5_nocb.
Qed.
Lemma nocb_carry x p : carries x = Some p -> nocb x.
Proof. intro H. split; [intros (u & v & ->)|intros (u1 & u2 & u3 & u4 & u5 & ->)]; discriminate. Qed.
Lemma nocb_did e : match e with EPkt _ _ | ECb _ _ _ _ _ => False | _ => True end -> nocb (Did e).
Proof.
  intro H. split.
  - intros (u & v & E). assert (e = EPkt u v) by congruence. subst e. contradiction.
  - intros (u1 & u2 & u3 & u4 & u5 & E). assert (e = ECb u1 u2 u3 u4 u5) by congruence. subst e. contradiction.
Qed.
Lemma P5_silent l a l1 : each Q5 l -> J5 l (m_job a) -> Forall (fun x => nocb x) l1 -> P5 (l ++ l1) a.
Proof.
  intros H K F. revert l H K. induction F as [|x l1 Hx F IH]; intros l H K; [rewrite app_nil_r; split; auto|].
  replace (l ++ x :: l1) with ((l ++ [x]) ++ l1) by (rewrite <- app_assoc; reflexivity). apply IH.
  - apply each_snoc; auto. destruct x as [p|p e|e]; try exact I. destruct e; try exact I. destruct Hx as (_ & Hx). exfalso. apply Hx. cbn. eexists _, _, _, _, _. reflexivity.
  - now apply J5_nocb.
Qed.
Lemma sends_nocb p c ok l c' : sends p c ok l c' -> Forall nocb l.
Proof. intro H. split_sends H. constructor; [eapply nocb_carry; eauto|constructor]. Qed.
Lemma P5_keeps l a l1 b : P5 l a -> mok a -> mstep a l1 b -> P5 (l ++ l1) b.
Proof.
  intros (HQ & HJ) Hk S. destruct S; cbn [m_job m_ses m_next] in *;
    try (apply P5_silent; cbn [m_job] in *; auto; try exact I; try (eapply sends_nocb; eauto; fail); try (constructor; [apply nocb_did; exact I|constructor]); fail).
  - apply P5_silent; auto. apply Forall_app. split.
    + unfold kept_copy in H2. destruct rt; [destruct H2 as (v & _ & ->)|destruct H2 as (_ & ->)]; auto. constructor; [apply nocb_did; exact I|constructor].
    + destruct ok; [eapply sends_nocb; eauto|destruct H3 as (_ & -> & _); auto].
  - split; cbn [m_job]; [apply each_snoc; [assumption|exact I]|]. now apply since_new.
  - apply P5_silent; auto. cbn [m_job J5 Q5]. split; [exact I|]. split; [|exact I]. split; auto. left. exists m, d. rewrite H1. destruct H as (A1 & A2 & A3 & A4 & A5 & A6).
    split; [unfold publish_means; auto 8|]. split; auto. split; auto. split; auto. symmetry. auto.
  - apply P5_silent; auto. cbn [m_job J5 Q5 noshow]. split; [exact I|]. split; [|auto]. split; auto. left. exists m, d. destruct (pm_qos m); try congruence; auto 8.
  - apply P5_silent; auto. cbn. auto.
  - apply P5_silent; auto. cbn [m_job]. assert (K : J5 l told).
    { unfold told. cbn [J5 Q5]. split; [exact I|]. split; [|destruct k; cbn; auto]. split; auto. right. split; auto. left. split; auto. split; auto. split; auto. destruct k; cbn; auto 8. }
    assert (K' : J5 l (Clear id told)) by (cbn [J5]; eexists _, _; split; [reflexivity|exact K]). destruct k; auto; destruct rt; auto.
  - apply P5_silent; auto. cbn [m_job J5 Q5]. split; [exact I|]. split; [|exact I]. split; auto. right. split; auto.
  - apply P5_silent; auto. cbn [m_job J5 Q5]. split; [exact I|]. split; [|exact I]. split; auto. right. split; auto. left. auto 10.
  - apply P5_silent; auto. cbn [m_job J5 Q5]. split; [exact I|]. split; [|exact I]. split; auto. right. split; auto. right. right. auto.
  - destruct HJ as (e & j' & -> & HJ). apply P5_silent; auto. constructor; [apply nocb_did; exact I|constructor].
  - destruct HJ as (K1 & K2 & K3). split; [apply each_snoc; auto|]. cbn [m_job]. now apply noshow_J5.
  - apply P5_silent; [assumption| |eapply sends_nocb; eauto]. cbn [m_job]. destruct HJ as [->| ->]; destruct ok; cbn; auto.
  - apply P5_silent; auto. cbn [m_job]. destruct HJ as [->| ->]; cbn; auto.
  - apply P5_silent; auto. cbn [m_job]. destruct HJ as [->| ->]; destruct (status_beq _ _); cbn; auto.
  - apply P5_silent; [assumption| |eapply sends_nocb; eauto]. cbn [m_job]. destruct ok; exact I.
  - apply P5_silent; [assumption|exact I|]. destruct rt; [|constructor]. induction (unacked (sent se)); constructor; auto. apply nocb_did. exact I.
  - apply P5_silent; [assumption|cbn; auto|constructor].
  - apply P5_silent; [assumption| |constructor; [apply nocb_did; exact I|constructor]]. cbn [m_job]. destruct r; exact I.
  - apply P5_silent; [assumption| |eapply sends_nocb; eauto]. cbn [m_job]. destruct ok; exact I.
Qed.

(** ** Packet identifiers *)
Definition tgiven (l : list tok) : list Z := flat_map (fun x => match x with Did (EId i) => [i] | _ => [] end) l.
Definition P4 (l : list tok) (a : mstate) : Prop := counted 1 (tgiven l) (m_next a).
Lemma counted_snoc l : forall a b, counted a l b -> counted a (l ++ [b]) (next_id b).
Proof. induction l; cbn; intros a0 b H; [subst; auto|]. destruct H as (-> & H). split; auto. Qed.
Lemma tgiven_app l1 l2 : tgiven (l1 ++ l2) = tgiven l1 ++ tgiven l2.
Proof. apply flat_map_app. Qed.
Lemma sends_given p c ok l c' : sends p c ok l c' -> tgiven l = [].
Proof. intro H. split_sends H. destruct x; try discriminate; reflexivity. Qed.
Lemma P4_keeps l a l1 b : P4 l a -> mok a -> P5 l a -> mstep a l1 b -> P4 (l ++ l1) b.
Proof.
  unfold P4. intros H Hk (_ & HJ) S. rewrite tgiven_app. destruct S; cbn [m_next m_job] in *;
    try (match goal with H : sends _ _ _ _ _ |- _ => rewrite (sends_given _ _ _ _ _ H) end); cbn [tgiven flat_map app]; rewrite ?app_nil_r; auto.
  - assert (E : tgiven (l0 ++ l1) = []); [|now rewrite E, app_nil_r]. rewrite tgiven_app. replace (tgiven l0) with (@nil Z) by (unfold kept_copy in H3; destruct rt; [destruct H3 as (v & _ & ->)|destruct H3 as (_ & ->)]; reflexivity).
    destruct ok; [eapply sends_given; eauto|destruct H4 as (_ & -> & _); reflexivity].
  - now apply counted_snoc.
  - destruct HJ as (HJ & _). destruct e; try contradiction. now rewrite app_nil_r.
  - replace (tgiven (if rt then _ else _)) with (@nil Z); [now rewrite app_nil_r|]. destruct rt; auto. induction (unacked (sent se)); auto.
Qed.

(** ** The connection *)
Definition Q6 (l : list tok) (x : tok) : Prop :=
  match carries x with
  | Some (KPublish _) | Some (KSubscribe _ _) | Some (KUnsubscribe _ _) | Some KPing | Some (KAck _ _) => online (fun x => ~ broken x) l
  | Some KDisconnect => online (fun _ => True) l
  | _ => True
  end.
Definition C6 (l : list tok) (c : cstatus) : Prop :=
  match c with Connected => online (fun x => ~ broken x) l | DisconnectPending => online (fun _ => True) l | NotConnected => True end.
Definition J6 (l : list tok) (c : cstatus) (j : job) : Prop :=
  match j with
  | Wait cl bs => c = NotConnected /\ exists a m b, l = a ++ Sent (KConnect m) :: b /\ cm_clean m = cl /\ reads b = bs /\ Forall (fun x => ~ leaves x /\ ~ broken x) b
  | _ => True
  end.
Definition P6 (l : list tok) (a : mstate) : Prop := each Q6 l /\ C6 l (m_conn a) /\ J6 l (m_conn a) (m_job a).
Lemma online_weak l : online (fun x => ~ broken x) l -> online (fun _ => True) l.
Proof. intros (a & m & b & sp & bs & H1 & H2 & H3 & H4). exists a, m, b, sp, bs. split; auto. split; auto. split; auto. eapply Forall_impl; [|exact H4]. cbn. intuition. Qed.
Lemma online_snoc Y l x : online Y l -> ~ leaves x -> Y x -> online Y (l ++ [x]).
Proof.
  intros (a & m & b & sp & bs & H1 & H2 & H3 & H4) K1 K2. exists a, m, (b ++ [x]), sp, (bs ++ reads [x]). split; [rewrite H1, <- app_assoc; reflexivity|].
  split; [rewrite reads_app, H2, <- app_assoc; reflexivity|]. split; auto. apply Forall_app. auto.
Qed.
Lemma C6_snoc l x c c' : C6 l c -> ~ leaves x -> (c' = c /\ ~ broken x \/ c' = broke c) -> C6 (l ++ [x]) c'.
Proof.
  intros H K [(-> & B)| ->]; destruct c; cbn in *; auto using online_snoc, online_weak.
Qed.
Lemma carry_leaves x p : carries x = Some p -> match p with KDisconnect | KConnect _ => False | _ => True end -> ~ leaves x.
Proof. intros H K [E|(m & E)]; rewrite H in E; [assert (p = KDisconnect) by congruence|assert (p = KConnect m) by congruence]; subst p; contradiction. Qed.
Lemma did_leaves e : ~ leaves (Did e).
Proof. intros [E|(m & E)]; discriminate. Qed.
Lemma did_broken e : ~ broken (Did e).
Proof. intros (p & E). discriminate. Qed.
Lemma C6_did l e c : C6 l c -> C6 (l ++ [Did e]) c.
Proof. intro H. apply (C6_snoc _ _ c); auto using did_leaves. left. auto using did_broken. Qed.
Lemma C6_dids l f c : C6 l c -> forall ids : list Z, C6 (l ++ map (fun i => Did (f i)) ids) c.
Proof. intros H ids. revert l H. induction ids as [|i ids IH]; intros l H; cbn; [now rewrite app_nil_r|]. replace (l ++ _ :: _) with ((l ++ [Did (f i)]) ++ map (fun i => Did (f i)) ids) by (rewrite <- app_assoc; reflexivity). apply IH. now apply C6_did. Qed.
Lemma C6_broke l c : C6 l c -> C6 l (broke c).
Proof. destruct c; cbn; auto using online_weak. Qed.
Lemma C6_sends p c ok l1 c' l : sends p c ok l1 c' -> C6 l c -> match p with KDisconnect | KConnect _ => False | _ => True end -> C6 (l ++ l1) c'.
Proof.
  intros H K N. split_sends H. apply (C6_snoc _ _ c); auto; [eapply carry_leaves; eauto|].
  destruct Ey as [(-> & _ & ->)|[(-> & _ & ->)|(-> & _ & ->)]]; auto; left; split; auto; intros (q & E); discriminate.
Qed.
Lemma each_dids Q l f (ids : list Z) : each Q l -> (forall l i, Q l (Did (f i))) -> each Q (l ++ map (fun i => Did (f i)) ids).
Proof. intros H K. revert l H. induction ids as [|i ids IH]; intros l H; cbn; [now rewrite app_nil_r|]. replace (l ++ _ :: _) with ((l ++ [Did (f i)]) ++ map (fun i => Did (f i)) ids) by (rewrite <- app_assoc; reflexivity). apply IH. apply each_snoc; auto. Qed.
Lemma J6_did l e c j : match e with EIn _ => False | _ => True end -> J6 l c j -> J6 (l ++ [Did e]) c j.
Proof.
  intro N. destruct j; cbn [J6]; auto. intros (K & a & m & b & E1 & E2 & E3 & E4). split; auto. exists a, m, (b ++ [Did e]). split; [rewrite E1, <- app_assoc; reflexivity|]. split; auto.
  split; [rewrite reads_app, E3; destruct e; try contradiction; cbn; now rewrite ?app_nil_r|]. apply Forall_app. split; auto. constructor; auto. split; [apply did_leaves|apply did_broken].
Qed.
Lemma J6_off l c j c' : c <> NotConnected -> J6 l c j -> forall l', J6 l' c' j.
Proof. destruct j; cbn; auto. intros H (K & _). contradiction. Qed.
Lemma Q6_did l e : Q6 l (Did e).
Proof. exact I. Qed.
Hint Resolve each_snoc Q6_did C6_did C6_broke : mf.
Lemma P6_keeps l a l1 b : P6 l a -> P5 l a -> mstep a l1 b -> P6 (l ++ l1) b.
Proof.
  intros (HQ & HC & HJ) (_ & HJ5) S. destruct S; cbn [m_job m_ses m_next m_conn] in *; unfold P6; cbn [m_conn m_job]; rewrite ?app_nil_r; 
    try (split; [auto with mf; fail|split; [auto with mf; fail|exact I || exact HJ || (apply J6_did; [exact I|exact HJ])]]).
  1: split; [split_sends H1|split; [eapply C6_sends; eauto; exact I|eapply (J6_off l Connected); eauto; discriminate]]; apply each_snoc; auto; unfold Q6; rewrite Ex; exact HC.
  2,3: split; [split_sends H0|split; [eapply C6_sends; eauto; exact I|eapply (J6_off l Connected); eauto; discriminate]]; apply each_snoc; auto; unfold Q6; rewrite Ex; exact HC.
  2: split; [split_sends H|split; [eapply C6_sends; eauto; exact I|eapply (J6_off l Connected); eauto; discriminate]]; apply each_snoc; auto; unfold Q6; rewrite Ex; exact HC.
  - assert (E : each Q6 (l ++ l0) /\ C6 (l ++ l0) Connected).
    { unfold kept_copy in H2. destruct rt; [destruct H2 as (v & _ & ->); auto with mf|destruct H2 as (_ & ->); rewrite app_nil_r; auto]. }
    destruct E as (HQ0 & HC0). rewrite app_assoc. destruct ok.
    + split; [split_sends H3|split; [eapply C6_sends; eauto; exact I|eapply (J6_off l Connected); eauto; discriminate]]; apply each_snoc; auto; unfold Q6; rewrite Ex; exact HC0.
    + destruct H3 as (_ & -> & ->). rewrite app_nil_r. split; auto. split; auto. eapply (J6_off l Connected); eauto; discriminate.
  - split; [split_sends H0|split; [|exact I]].
    + apply each_snoc; auto. unfold Q6. rewrite Ex. destruct c; cbn in HC; try contradiction; auto using online_weak.
    + replace c' with NotConnected; [exact I|]. inversion H0; reflexivity.
  - split; auto. split; auto. destruct k; try exact I; destruct rt; exact I.
  - split; [auto with mf|]. split; [auto with mf|]. destruct HJ5 as (e & j' & -> & _). exact I.
  - split; [auto with mf|]. split; [auto with mf|]. destruct HJ5 as (_ & _ & HJ5). destruct j; try contradiction; exact I.
  - split; [split_sends H|split; [eapply C6_sends; eauto; exact I|destruct ok; [exact I|destruct j; exact I]]]. apply each_snoc; auto. unfold Q6. rewrite Ex. exact HC.
  - split; auto. split; auto. destruct j; exact I.
  - split; auto. split; auto. assert (N : forall j, J6 l c (give_up j)) by (intros []; exact I). destruct (status_beq _ _); auto. destruct HJ5 as [->| ->]; exact I.
  - split_sends H0. split; [apply each_snoc; auto; unfold Q6; rewrite Ex; exact I|]. split; [exact I|]. destruct ok; [|exact I]. destruct Ey as [(-> & _)|[(_ & F & _)|(_ & F & _)]]; try discriminate.
    split; auto. exists l, m, []. auto.
  - split; [auto with mf|]. split; [auto with mf|]. destruct HJ as (-> & a & m & b & E1 & E2 & E3 & E4). split; auto. exists a, m, (b ++ [Did (EIn bs')]). split; [rewrite E1, <- app_assoc; reflexivity|]. split; auto.
    split; [rewrite reads_app, E3; cbn; now rewrite app_nil_r|]. apply Forall_app. split; auto. constructor; auto. split; [apply did_leaves|apply did_broken].
  - split; [destruct rt; [apply each_dids; auto with mf|now rewrite app_nil_r]|]. split; [|exact I]. destruct HJ as (-> & a & m & b & E1 & E2 & E3 & E4).
    assert (K : C6 l Connected) by (exists a, m, b, 0, []; auto 6). destruct rt; [now apply C6_dids|now rewrite app_nil_r].
  - split; auto. split; [|exact I]. destruct HJ as (-> & a & m & b & E1 & E2 & E3 & E4). exists a, m, b, 1, []. auto 7.
  - split; auto with mf. split; auto with mf. destruct r; exact I.
  - split; [split_sends H|split; [eapply C6_sends; eauto; exact I|destruct ok; exact I]]. apply each_snoc; auto. unfold Q6. rewrite Ex. exact I.
Qed.
End MF.
