(** Publishes from the server, end to end: all histories. *)
From Verif Require Import Base StateModel StateSpec StateHarness SerModel WireSpec SerHarness SerProofs4 CoreModel CoreHarness Machine MachSpec MachProofs MachFacts MachFacts2 MachFinal MachProofs5 NetProofs InSpec InProofs InProofs2 InProofs3.

(** ** The network during a step *)
Inductive wsteps : inet -> inet -> Prop :=
| ws_nil N : wsteps N N
| ws_step N N1 N' : wsteps N N1 -> wstep N1 N' -> wsteps N N'.
Inductive wrun : inet -> list tok -> inet -> Prop :=
| wr_nil N N' : wsteps N N' -> wrun N [] N'
| wr_tok N N1 N2 x l N' : wsteps N N1 -> kstep N1 x N2 -> wrun N2 l N' -> wrun N (x :: l) N'.
Lemma wrun_net l : forall N N' N'', wrun N l N' -> wstep N' N'' -> wrun N l N''.
Proof. intros N N' N'' H S. induction H; [constructor; eapply ws_step; eauto|eapply wr_tok; eauto]. Qed.
Lemma wrun_snoc l : forall N N' x N'', wrun N l N' -> kstep N' x N'' -> wrun N (l ++ [x]) N''.
Proof. intros N N' x N'' H S. induction H; cbn; [eapply wr_tok; [eauto|eauto|constructor; constructor]|eapply wr_tok; eauto]. Qed.
Lemma linked_split k N' : Linked k N' -> forall l1 l2, k = l1 ++ l2 -> exists N, Linked l1 N /\ wrun N l2 N'.
Proof.
  induction 1 as [|k N x N' H IH S|k N N' H IH S]; intros l1 l2 E.
  - symmetry in E. apply app_eq_nil in E. destruct E; subst. exists inet0. split; constructor. constructor.
  - destruct l2 as [|y l2 _] using rev_ind.
    + rewrite app_nil_r in E. subst l1. exists N'. split; [eapply linked_client; eauto|constructor; constructor].
    + rewrite app_assoc in E. apply app_inj_tail in E. destruct E as (E & ->). destruct (IH _ _ E) as (M & K1 & K2). exists M. split; auto. eapply wrun_snoc; eauto.
  - destruct (IH _ _ E) as (M & K1 & K2). exists M. split; auto. eapply wrun_net; eauto.
Qed.

Definition Ok (l : list tok) (c : cstatus) (se : session) (j : job) (N : inet) : Prop := exists gs, Inv gs l c se j N.
Lemma Ok_nets l c se j N N' : wsteps N N' -> Ok l c se j N -> Ok l c se j N'.
Proof. induction 1; auto. intro K. destruct (IHwsteps K) as (gs & K1). exists gs. eapply Inv_w; eauto. Qed.
Lemma wrun_cons N x l N' : wrun N (x :: l) N' -> exists N1 N2, wsteps N N1 /\ kstep N1 x N2 /\ wrun N2 l N'.
Proof. intro R. inversion R; subst. eauto. Qed.
Lemma run_one l c se j x N N' c' se' j' : (forall N1 N2, kstep N1 x N2 -> Ok l c se j N1 -> Ok (l ++ [x]) c' se' j' N2) -> wrun N [x] N' -> Ok l c se j N -> Ok (l ++ [x]) c' se' j' N'.
Proof. intros H R K. inversion R; subst. inversion H6; subst. eapply Ok_nets; eauto. eapply H; eauto. eapply Ok_nets; eauto. Qed.
Lemma run_none l c se j N N' : wrun N [] N' -> Ok l c se j N -> Ok (l ++ []) c se j N'.
Proof. intros R K. inversion R; subst. rewrite app_nil_r. eapply Ok_nets; eauto. Qed.
Lemma Ok_nil l c se j N : ~ (exists ty body, j = Got ty body) -> Ok l c se j N -> Inv [] l c se j N.
Proof. intros H (gs & K). pose proof (v_gs _ _ _ _ _ _ K) as E. destruct j; try (subst gs; exact K). exfalso. eauto. Qed.
Ltac nogot := let H := fresh in intros (? & ? & H); try discriminate H.

Definition conn_le (c c' : cstatus) : Prop := c = NotConnected -> c' = NotConnected.
Lemma sends_le p c ok l c' : sends p c ok l c' -> conn_le c c'.
Proof. destruct 1; unfold conn_le; auto. now intros ->. Qed.
Lemma Ok_se l c c' se se' j N : conn_le c c' -> StateSpec.recvd se' = StateSpec.recvd se -> Ok l c se j N -> Ok l c' se' j N.
Proof. intros H1 H2 (gs & K). exists gs. eapply Inv_se; eauto. Qed.
Lemma sends_Ok p c ok l1 c' l se j N N' : sends p c ok l1 c' -> asks_in p = false -> ~ replies p -> wrun N l1 N' -> Ok l c se j N -> Ok (l ++ l1) c' se j N'.
Proof.
  intros S Hp Hr R K. pose proof (sends_le _ _ _ _ _ S) as Hc. destruct (sends_tok _ _ _ _ _ S) as (x & -> & E & _). eapply Ok_se; [exact Hc|reflexivity|]. eapply run_one; [|exact R|exact K]. intros N1 N2 C (gs & I1). exists gs. eapply Inv_send; eauto.
Qed.
Lemma did_Ok l c se j e N N' : match e with EIn _ | EPkt _ _ | ECb _ _ _ _ _ => False | _ => True end -> wrun N [Did e] N' -> Ok l c se j N -> Ok (l ++ [Did e]) c se j N'.
Proof. intros He R K. eapply run_one; [|exact R|exact K]. intros N1 N2 C (gs & I1). exists gs. eapply Inv_did; eauto. Qed.
Lemma dids_Ok c se j l1 : Forall (fun x => exists e, x = Did e /\ match e with EIn _ | EPkt _ _ | ECb _ _ _ _ _ => False | _ => True end) l1 -> forall l N N', wrun N l1 N' -> Ok l c se j N -> Ok (l ++ l1) c se j N'.
Proof.
  induction 1 as [|x l1 (e & -> & He) F IH]; intros l N N' R K; [eapply run_none; eauto|]. destruct (wrun_cons _ _ _ _ R) as (N1 & N2 & R1 & R2 & R3). replace (l ++ Did e :: l1) with ((l ++ [Did e]) ++ l1) by now rewrite <- app_assoc.
  eapply IH; [exact R3|]. eapply did_Ok; [exact He| |exact K]. eapply wr_tok; [exact R1|exact R2|constructor; constructor].
Qed.
Lemma Ok_got l c se ty body j' N : soft j' -> (forall id, owes id j' = []) -> (forall id, pend id j' = []) -> Ok l c se (Got ty body) N -> Ok l c se j' N.
Proof. intros H1 H2 H3 (gs & K). exists []. eapply Inv_got; eauto. Qed.
Lemma Ok_job l c c' se j j' N : soft j -> soft j' -> conn_le c c' -> (forall id, owes id j' = []) -> (forall id, pend id j' = []) -> (forall id, pend id j = []) -> Ok l c se j N -> Ok l c' se j' N.
Proof. intros H0 H1 H2 H3 H4 H5 (gs & K). exists []. eapply Inv_job; [exact H1|exact H2|intro; left; auto|intro; now rewrite H4, H5|intro; now rewrite !soft_eff|exact K]. Qed.
Lemma give_soft j : soft (give_up j).
Proof. destruct j; exact I. Qed.
Lemma give_owes id j : owes id (give_up j) = [].
Proof. destruct j; reflexivity. Qed.
Lemma give_pend id j : pend id (give_up j) = [].
Proof. destruct j; reflexivity. Qed.
Lemma noshow_pend id j : noshow j -> pend id j = [].
Proof. destruct j; cbn; auto; contradiction. Qed.
Lemma acked_out se id k : k <> Pubrel -> StateSpec.recvd (snd (spec_step se (Acked id k OpReceive))) = StateSpec.recvd se.
Proof. intro H. apply recvd_out. destruct k; auto; contradiction. Qed.

Fixpoint shape (j : job) : Prop :=
  match j with
  | Clear _ j => shape j
  | Show _ j => match j with Idle | Owe _ _ Idle => True | _ => False end
  | Owe _ _ j | Note _ _ j => j = Idle \/ j = Resume
  | _ => True
  end.
Lemma shape_keeps rt cn a l b : shape (m_job a) -> mstep rt cn a l b -> shape (m_job b).
Proof.
  intros H S. destruct S; cbn [m_job shape] in *; auto.
  - destruct k, rt; exact I.
  - destruct j; try contradiction; auto. cbn. destruct j; try contradiction; auto.
  - destruct ok; cbn; auto. destruct H; subst j; exact I.
  - destruct H; subst j; exact I.
  - destruct H; subst j; destruct (status_beq _ _); exact I.
  - destruct ok; exact I.
  - destruct r; exact I.
  - destruct ok; exact I.
Qed.

Section Keep.
Variables (rt cn : bool).
Definition P12 (l : list tok) (a : mstate) : Prop := forall N, Linked l N -> Ok l (m_conn a) (m_ses a) (m_job a) N.
Lemma P12_keeps l a l1 b : P12 l a -> P1 l a -> P5 l a -> shape (m_job a) -> mstep rt cn a l1 b -> P12 (l ++ l1) b.
Proof.
  intros HP H1 H5 Hsh S N' HL. destruct (linked_split _ _ HL l l1 eq_refl) as (N & HN & R). pose proof (HP N HN) as HI. clear HP HL.
  destruct H1 as ((Hs & Hi & Hj) & _ & HJ1). destruct H5 as (_ & HJ5).
  destruct S; cbn [m_conn m_ses m_job m_next] in *.
  - eapply sends_Ok; eauto.
  - (* publish *)
    assert (K : Ok (l ++ l0 ++ l1) c' se j N').
    { assert (Er : rt = true \/ rt = false) by (destruct rt; auto). assert (K0 : exists N1, wrun N1 l1 N' /\ Ok (l ++ l0) Connected se j N1).
      { unfold kept_copy in H2. destruct Er as [Er|Er]; rewrite Er in H2.
        - destruct H2 as (v & _ & ->). destruct (wrun_cons _ _ _ _ R) as (N1 & N2 & R1 & R2 & R3). exists N2. split; auto. eapply did_Ok; [exact I| |exact HI]. eapply wr_tok; [exact R1|exact R2|constructor; constructor].
        - destruct H2 as (_ & ->). exists N. rewrite app_nil_r. auto. }
      destruct K0 as (N1 & R1 & K1). rewrite app_assoc. destruct ok; [eapply sends_Ok; eauto|]. destruct H3 as (_ & -> & ->). eapply run_none; eauto. }
    eapply Ok_se; [|..|exact K]; [unfold conn_le; auto|]. destruct ok1; unfold r; rewrite ?recvd_out; auto; exact I.
  - eapply sends_Ok; eauto.
  - eapply sends_Ok; eauto.
  - eapply sends_Ok; eauto.
  - eapply sends_Ok; eauto. eapply Ok_se; [|reflexivity|exact HI]. intro C. reflexivity.
  - eapply did_Ok; eauto; exact I.
  - rewrite app_nil_r. assert (K : Ok l c se j N') by (pose proof (run_none _ _ _ _ _ _ R HI) as K; now rewrite app_nil_r in K). eapply Ok_se; [| |exact K]; [unfold conn_le; auto|]. apply recvd_out. exact I.
  - eapply run_one; eauto. intros N1 N2 C (gs & K). exists gs. exact (Inv_read _ _ _ _ _ _ _ _ C K).
  - eapply Ok_job; [| | | | | |eapply did_Ok; eauto; exact I]; auto; try exact I; unfold conn_le; auto.
  - eapply Ok_job; [| | | | | |eapply run_none; eauto]; auto; try exact I; destruct c; unfold conn_le; cbn; congruence.
  - eapply did_Ok; eauto; exact I.
  - eapply run_one; eauto. intros N1 N2 C K. apply Ok_nil in K; [|nogot]. destruct (Inv_packet _ _ _ _ _ _ _ C K) as (x & K1). exists [x]. exact K1.
  - eapply Ok_got; [| | |eapply run_none; eauto]; auto; exact I.
  - eapply Ok_got; [| | |eapply run_none; eauto]; auto; try exact I. intro id. cbn. assert (E : d_qos d = Q0) by (destruct H0 as (E & _); congruence). rewrite E. reflexivity.
  - (* a publish *) rewrite app_nil_r. pose proof (run_none _ _ _ _ _ _ R HI) as (gs & K). rewrite app_nil_r in K. exists []. eapply Inv_publish; eauto.
  - (* again *) rewrite app_nil_r. pose proof (run_none _ _ _ _ _ _ R HI) as (gs & K). rewrite app_nil_r in K. exists []. eapply Inv_repeated; eauto.
  - (* an acknowledgement *) rewrite app_nil_r. pose proof (run_none _ _ _ _ _ _ R HI) as K. rewrite app_nil_r in K.
    assert (D : k = Pubrel \/ k <> Pubrel) by (destruct k; auto; right; discriminate). destruct D as [->|D].
    + destruct K as (gs & K). exists []. cbn [reply_to] in *. eapply Inv_released; eauto; exact I.
    + eapply (Ok_se l c c se); [unfold conn_le; auto|now apply acked_out|]. eapply Ok_got; [| | |exact K].
      * destruct k, rt; try exact I; contradiction.
      * intro i0. destruct k, rt; try reflexivity; contradiction.
      * intro i0. destruct k, rt; try reflexivity; contradiction.
  - eapply Ok_got; [| | |eapply run_none; eauto]; auto; exact I.
  - eapply Ok_got; [| | |eapply run_none; eauto]; auto; exact I.
  - eapply Ok_got; [| | |eapply run_none; eauto]; auto; exact I.
  - (* clear *) destruct HJ5 as (e & j' & -> & _). assert (K : Ok (l ++ [Did (EClear id)]) c se (Clear id (Show e j')) N') by (eapply did_Ok; eauto; exact I). destruct K as (gs & K). exists []. eapply (Inv_job gs _ c c se se (Clear id (Show e j')) (Show e j')); auto; exact I.
  - (* show *) destruct HJ5 as (Hcb & _ & Hn). eapply run_one; eauto. intros N1 N2 C K. exists []. eapply Inv_show; eauto; [intro; now apply noshow_pend| |apply Ok_nil; auto; nogot].
    cbn [shape] in Hsh. destruct j; auto; contradiction.
  - (* acknowledge *) destruct (sends_tok _ _ _ _ _ H) as (x & -> & E & D). assert (Dk : k = Pubrel \/ k <> Pubrel) by (destruct k; auto; right; discriminate). destruct Dk as [->|Dk].
    + assert (K : Ok (l ++ [x]) c' se (Owe Pubrel id j) N') by (eapply sends_Ok; eauto).
      destruct ok; (eapply Ok_job; [| | | | | |exact K]); auto; try exact I; try (unfold conn_le; auto; fail); try (intro; apply give_owes); try (intro; apply give_pend). try apply give_soft.
    + pose proof (sends_le _ _ _ _ _ H) as Hc. eapply (Ok_se _ Connected); [exact Hc|reflexivity|]. eapply run_one; [|exact R|exact HI]. intros N1 N2 C K. apply Ok_nil in K; [|nogot]. destruct (Inv_ack _ _ _ _ _ _ _ _ E Dk C K) as (K1 & K2).
      destruct D as [(-> & -> & _)|[(-> & -> & _)|(-> & -> & _)]]; [exists []; auto|..].
      * assert (K3 : Ok (l ++ [Cut (KAck k id) false]) Connected se (Owe k id j) N2) by (exists []; apply K2; discriminate). eapply Ok_job; [| | | | | |exact K3]; auto; try exact I; try (unfold conn_le; auto; fail); try (intro; apply give_owes); try (intro; apply give_pend). try apply give_soft.
      * assert (K3 : Ok (l ++ [Cut (KAck k id) true]) Connected se (Owe k id j) N2) by (exists []; apply K2; discriminate). eapply Ok_job; [| | | | | |exact K3]; auto; try exact I; try (unfold conn_le; auto; fail); try (intro; apply give_owes); try (intro; apply give_pend). try apply give_soft.
  - eapply Ok_job; [| | | | | |eapply run_none; eauto]; auto; try exact I; try (unfold conn_le; auto; fail); try (intro; apply give_owes); try (intro; apply give_pend). try apply give_soft.
  - (* noted *) rewrite app_nil_r. pose proof (run_none _ _ _ _ _ _ R HI) as K. rewrite app_nil_r in K. apply Ok_nil in K; [|nogot]. exists []. apply Inv_note with (j := j); auto; [apply Hj|].
    destruct HJ5 as [-> | ->]; destruct (status_beq _ _); cbn; auto.
  - (* connect *) destruct (sends_tok _ _ _ _ _ H0) as (x & -> & E & D). eapply run_one; eauto. intros N1 N2 C K. apply Ok_nil in K; [|nogot]. exists []. pose proof (Inv_connect _ _ _ _ _ _ E C K) as K1. destruct D as [(-> & -> & _)|[(-> & -> & _)|(-> & -> & _)]]; exact K1.
  - eapply run_one; eauto. intros N1 N2 C (gs & K). exists gs. exact (Inv_read _ _ _ _ _ _ _ _ C K).
  - (* the wait ends *) pose proof (run_none _ _ _ _ _ _ R HI) as K. apply Ok_nil in K; [|nogot]. exists []. apply (Inv_job [] _ c c se se (Wait cl bs) Failed); auto; exact I.
  - eapply run_one; eauto. intros N1 N2 C (gs & K). exists gs. exact (Inv_read _ _ _ _ _ _ _ _ C K).
  - eapply did_Ok; eauto; exact I.
  - eapply Ok_job; [| | | | | |eapply run_none; eauto]; auto; try exact I; unfold conn_le; auto.
  - (* new session *)
    assert (K : Ok (l ++ (if rt then map (fun id => Did (EClear id)) (unacked (sent se)) else [])) c se (Wait cl [32; 2; 0; 0]) N').
    { eapply dids_Ok; eauto. destruct rt; [|constructor]. apply Forall_forall. intros x Hx. apply in_map_iff in Hx. destruct Hx as (id & <- & _). eexists. split; [reflexivity|exact I]. }
    apply Ok_nil in K; [|nogot]. destruct (Inv_session _ _ _ _ _ _ K) as (E1 & E2). exists []. eapply Inv_open; [exact I|reflexivity|reflexivity|exact K|congruence|]. intro i0. rewrite (E2 eq_refl). reflexivity.
  - (* old session *) pose proof (run_none _ _ _ _ _ _ R HI) as K. apply Ok_nil in K; [|nogot]. destruct (Inv_session _ _ _ _ _ _ K) as (E1 & _). exists []. eapply Inv_open; [exact I|reflexivity|reflexivity|exact K|congruence|reflexivity].
  - eapply Ok_job; [| | | | | |eapply run_none; eauto]; auto; try exact I; unfold conn_le; auto.
  - eapply Ok_job; [| | | | | |eapply run_none; eauto]; auto; try exact I; unfold conn_le; auto.
  - eapply Ok_job; [| | | | | |eapply did_Ok; eauto; exact I]; auto; try exact I; try (unfold conn_le; auto; fail); destruct r; reflexivity || exact I.
  - (* again *) assert (K : Ok (l ++ l0) c' se (Again id bs) N') by (eapply sends_Ok; eauto). destruct ok; (eapply Ok_job; [| | | | | |exact K]); auto; try exact I; unfold conn_le; auto.
  - eapply Ok_job; [| | | | | |eapply run_none; eauto]; auto; try exact I; unfold conn_le; auto.
Qed.
End Keep.
