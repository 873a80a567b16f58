(** The client does what the machine of Machine.v can do: calls of the application. *)
From Verif Require Import Base StateModel StateSpec StateHarness StateProofs StateProofs2 SerModel WireSpec SerHarness SerProofs SerProofs2 SerProofs3 SerProofs4 SerProofs5
  CoreModel CoreHarness CoreSpec CoreProofs CoreProofs2 CoreProofs3 CoreProofs4 CoreProofs5 CoreProofs6 CoreProofs7 CoreProofs8 CoreProofs9 CoreProofs10 CoreProofs11 CoreProofs12 CoreProofs13 CoreProofs14 CoreProofs15 CoreProofs16 CoreProofs17 CoreProofs18 CoreProofs19 CoreProofs20 CoreProofs21 CoreProofs22 ConcModel ConcHarness ConcProofs ConcProofs2 ConcProofs3 ConcProofs4 Machine.

(** ** Reading events, running *)
Lemma says_app t1 l1 t2 l2 : Says t1 l1 -> Says t2 l2 -> Says (t1 ++ t2) (l1 ++ l2).
Proof.
  induction 1; intro K; cbn [app]; auto.
  - rewrite <- app_assoc. apply says_sent; auto.
  - rewrite <- app_assoc. eapply says_cut; eauto.
  - rewrite <- app_assoc. cbn [app]. eapply says_err; eauto.
  - apply says_did; auto.
Qed.
Lemma says_one e : is_send e = false -> Says [e] [Did e].
Proof. intro. apply says_did; [auto|constructor]. Qed.
Lemma run_app rt cn a l1 b l2 d : Run rt cn a l1 b -> Run rt cn b l2 d -> Run rt cn a (l1 ++ l2) d.
Proof. induction 1; intro K; auto. rewrite <- app_assoc. eapply run_step; eauto. Qed.
Lemma run_one rt cn a l b : mstep rt cn a l b -> Run rt cn a l b.
Proof. intro. rewrite <- (app_nil_r l). eapply run_step; [eauto|constructor]. Qed.

(** a packet sent by the client *)
Lemma sentb_says p s ok s' t : sentb (bytes p) s ok s' t -> exists l, Says t l /\ sends p (x_status (s_ctx s)) ok l (x_status (s_ctx s')).
Proof.
  intros (k & l & H1 & H2 & H3 & _ & _ & H6 & H7). destruct H7 as [(He & ->)|(-> & (t0 & -> & He) & ->)].
  - cbn [set_lastTx x_status]. rewrite <- (app_nil_r t). destruct ok.
    + exists [Sent p]. split; [|constructor]. apply says_sent; auto; [|constructor]. rewrite H2, (proj1 H6 eq_refl). apply firstn_all.
    + exists [Cut p false]. split; [|constructor]. apply (says_cut p k); auto; [|constructor].
      destruct (Nat.eq_dec k (length (bytes p))) as [E|E]; [apply H6 in E; discriminate|lia].
  - exists [Cut p true]. rewrite outs_app in H2. cbn in H2. rewrite app_nil_r in H2. split.
    + apply (says_err p k); auto; [| |constructor].
      * unfold send_only in *. rewrite forallb_app in H3. now apply andb_true_iff in H3.
      * destruct (Nat.eq_dec k (length (bytes p))) as [E|E]; [apply H6 in E; discriminate|lia].
    + replace (x_status (transport_broke (set_lastTx (s_ctx s) l))) with (broke (x_status (s_ctx s))); [constructor|].
      unfold transport_broke. cbn [set_lastTx x_status]. destruct (x_status (s_ctx s)) eqn:E; cbn; auto.
Qed.
Lemma sentb_next bs s ok s' t : sentb bs s ok s' t -> x_nextId (s_ctx s') = x_nextId (s_ctx s).
Proof.
  intros (k & l & _ & _ & _ & _ & _ & _ & [(_ & ->)|(_ & _ & ->)]); [reflexivity|].
  unfold transport_broke. destruct (cstatus_beq _ _); reflexivity.
Qed.

(** the sizes of a subscription as the code adds them up do not wrap *)
Definition subs_room (M : Z) (subs : option (list subinfo)) (count : Z) : Prop :=
  match subs with
  | Some l => fold_right (fun x k => s_len x + 3 + k) 2 (firstn (Z.to_nat count) l) < M
  | None => True
  end.
(** [cn]: publishes may be cancelled *)
Definition op_fits (M : Z) (cn : bool) (o : op) : Prop :=
  match o with
  | OSubscribe subs count _ | OUnsubscribe subs count _ => subs_room M subs count
  | OCancel _ => cn = true
  | _ => True
  end.
Definition call_fits (M : Z) (cn : bool) (c : call) : Prop := match c with COp o => op_fits M cn o | _ => True end.

(** ** An invariant of the machine *)
Definition ids_ok (l : list flight) : Prop := Forall (fun f => id_ok (f_id f)) l.
Definition ses_ok (se : session) : Prop := ids_ok (sent se) /\ ids_ok (StateSpec.recvd se).
Fixpoint job_ok (j : job) : Prop :=
  match j with
  | Owe _ id j | Note _ id j => id_ok id /\ job_ok j
  | Clear _ j | Show _ j => job_ok j
  | _ => True
  end.
Definition mok (M : mstate) : Prop := ses_ok (m_ses M) /\ id_ok (m_next M) /\ job_ok (m_job M).
Definition sop_ok (o : sop) : Prop := match o with Reserve id _ | Published id OpReceive _ => id_ok id | _ => True end.
Lemma set_ok l id x : ids_ok l -> ids_ok (spec_set l id x).
Proof.
  intro H. unfold spec_set, ids_ok in *. rewrite Forall_forall in *. intros f Hf. apply in_map_iff in Hf. destruct Hf as (g & <- & Hg).
  specialize (H g Hg). destruct (f_id g =? id); exact H.
Qed.
Lemma drop_ok l id : ids_ok l -> ids_ok (spec_drop l id).
Proof. unfold spec_drop, ids_ok. rewrite !Forall_forall. intros H f Hf. apply filter_In in Hf. now apply H. Qed.
Lemma add_ok c l id q x : ids_ok l -> id_ok id -> ids_ok (snd (spec_add c l id q x)).
Proof.
  intros H K. unfold spec_add. destruct (in_flight l id); auto. destruct (_ <? _)%nat; auto. cbn [snd]. apply Forall_app. split; auto.
Qed.
Lemma action_ok l f a : ids_ok l -> In f l -> ids_ok (snd (apply_action l f a)).
Proof.
  intros H K. destruct a; cbn [apply_action snd]; auto using set_ok, drop_ok. apply Forall_app. split; [now apply drop_ok|].
  constructor; auto. unfold ids_ok in H. rewrite Forall_forall in H. now apply (H f).
Qed.
Lemma lookup_found l id f : lookup l id = Some f -> In f l.
Proof. unfold lookup. intro H. now apply find_some in H. Qed.
Lemma step_ok se o : ses_ok se -> sop_ok o -> ses_ok (snd (spec_step se o)).
Proof.
  intros (H1 & H2) Ho. destruct o as [id q|id op q|id k op|id|]; cbn [spec_step].
  - destruct (qos_beq q Q0); [split; auto|]. destruct (id =? 0); [split; auto|].
    pose proof (add_ok (cap_out se) (sent se) id q PublishSend H1 Ho). destruct (spec_add _ _ _ _ _). split; auto.
  - assert (K : forall q, q <> Q0 -> ses_ok (snd (spec_step se (Published id op q)))).
    { intros q0 Hq0. cbn [spec_step]. destruct q0; [congruence|..]; destruct op; (destruct (id =? 0); [split; auto|]).
      1,3: destruct (lookup (sent se) id) as [f|]; [|split; auto]; destruct (negb _); [split; auto|]; destruct (f_st f); split; cbn; auto using set_ok.
      all: match goal with |- context [spec_add ?c ?l ?i ?q ?x] => pose proof (add_ok c l i q x H2 Ho); destruct (spec_add c l i q x) end; split; auto. }
    destruct q; [destruct op; split; auto|apply (K Q1); discriminate|apply (K Q2); discriminate].
  - destruct (id =? 0); [split; auto|]. destruct (concerns_sent k op).
    + destruct (lookup (sent se) id) as [f|] eqn:E; [|split; auto]. pose proof (action_ok _ f (sender_table (f_qos f) (f_st f) k op) H1 (lookup_found _ _ _ E)).
      destruct (apply_action _ _ _) as [[a b] l]. split; auto.
    + destruct (lookup (StateSpec.recvd se) id) as [f|] eqn:E; [|split; auto]. pose proof (action_ok _ f (receiver_table (f_qos f) (f_st f) k op) H2 (lookup_found _ _ _ E)).
      destruct (apply_action _ _ _) as [[a b] l]. split; auto.
  - destruct (lookup (sent se) id); split; cbn; auto using drop_ok.
  - split; constructor.
Qed.
Lemma half_ok se id : ses_ok se -> In id (half_done (sent se)) -> id_ok id.
Proof.
  intros (H & _) K. unfold half_done, ids in K. apply in_map_iff in K. destruct K as (f & <- & Hf). apply filter_In in Hf.
  unfold ids_ok in H. rewrite Forall_forall in H. now apply H.
Qed.
Lemma give_up_ok j : job_ok (give_up j).
Proof. destruct j; exact I. Qed.
Lemma mstep_ok rt cn a l b : mstep rt cn a l b -> mok a -> mok b.
Proof.
  intros H (A1 & A2 & A3). destruct H; cbn [m_ses m_next m_job] in A1, A2, A3; (split; [|split]); cbn [m_ses m_next m_job];
    try (repeat match goal with r := _ |- _ => unfold r in *; clear r end);
    try (auto using step_ok, give_up_ok; fail); try (apply step_ok; auto; exact I); try (apply A3); try exact I;
    try (match goal with |- context [if ?b then _ else _] => destruct b end; try exact I; try exact A3; try apply A3; try apply give_up_ok; fail).
  - destruct H as (_ & Hid & _). specialize (Hid H0).
    assert (K : ses_ok (snd (spec_step se (Reserve (pm_id m) (pm_qos m))))) by (apply step_ok; auto). destruct ok1; [apply step_ok; [exact K|exact I]|exact K].
  - unfold next_id, id_ok in *. destruct (i =? 65535) eqn:E; lia.
  - destruct H as (_ & _ & _ & _ & _ & Hid). specialize (Hid H1). apply step_ok; [exact A1|exact Hid].
  - destruct H as (_ & _ & _ & _ & _ & Hid). specialize (Hid H1). cbn. split; [exact Hid|exact I].
  - destruct H as (_ & _ & _ & _ & _ & Hid). specialize (Hid H0). cbn. split; [exact Hid|exact I].
  - destruct k, rt; cbn; auto.
  - cbn. split; [eapply half_ok; eauto|exact I].
  - destruct r; exact I.
Qed.
Lemma run_ok rt cn a l b : Run rt cn a l b -> mok a -> mok b.
Proof. induction 1; auto. intro. apply IHRun. eapply mstep_ok; eauto. Qed.

(** a CONNECT, whole or in part *)
Definition starts (x : tok) : bool := match x with Sent (KConnect _) | Cut (KConnect _) _ => true | _ => false end.
(** whether there may be one *)
Definition may_start : Type := bool.
Existing Class may_start.
Definition unstarted (cc : may_start) (l : list tok) : Prop := cc = false -> Forall (fun x => starts x = false) l.
Lemma unstarted_nil cc : unstarted cc []. Proof. intros _. constructor. Qed.
Lemma unstarted_app cc a b : unstarted cc a -> unstarted cc b -> unstarted cc (a ++ b).
Proof. intros H K E. apply Forall_app. split; auto. Qed.
Lemma unstarted_did cc t : unstarted cc (map Did t).
Proof. intros _. induction t; constructor; auto. Qed.
Lemma unstarted_sends cc p c ok l c' : sends p c ok l c' -> match p with KConnect _ => False | _ => True end -> unstarted cc l.
Proof. intros H K _. destruct H; constructor; auto; destruct p; auto; contradiction. Qed.

Section MP.
Context {cc : may_start}.
Variable G : cfg.
Variables n m : nat.
Variables rt cn : bool.
Hypothesis HM : 4294967296 <= g_M G.
Hypothesis HV : 3 <= g_maxvec G.
Hypothesis HB : g_big G = false.
Notation good := (good n m).
Notation fits := (op_fits (g_M G) cn).
Notation Run := (Run rt cn).
Notation mstep := (mstep rt cn).

(** the machine's view of the client *)
Definition ms (s : st) (j : job) : mstate := mkM (x_status (s_ctx s)) (session_of n m s) (x_nextId (s_ctx s)) j.
Definition does (s : st) (j : job) (s' : st) (j' : job) (t : list ev) : Prop := exists l, Says t l /\ Run (ms s j) l (ms s' j') /\ unstarted cc l.
Lemma does_refl s j : does s j s j [].
Proof. exists []. split; [constructor|]. split; [constructor|apply unstarted_nil]. Qed.
Lemma does_trans s1 j1 s2 j2 s3 j3 t1 t2 : does s1 j1 s2 j2 t1 -> does s2 j2 s3 j3 t2 -> does s1 j1 s3 j3 (t1 ++ t2).
Proof. intros (l1 & A1 & B1 & C1) (l2 & A2 & B2 & C2). exists (l1 ++ l2). split; [now apply says_app|]. split; [eapply run_app; eauto|now apply unstarted_app]. Qed.
Lemma does_same s j s' j' t s1 s1' : ms s j = ms s1 j -> ms s' j' = ms s1' j' -> does s1 j s1' j' t -> does s j s' j' t.
Proof. unfold does. intros -> ->. auto. Qed.
Lemma does_step s j s' j' t l : Says t l -> unstarted cc l -> mstep (ms s j) l (ms s' j') -> does s j s' j' t.
Proof. intros H U K. exists l. split; auto. split; auto. now apply run_one. Qed.
Lemma does_event s j s' j' e : is_send e = false -> mstep (ms s j) [Did e] (ms s' j') -> does s j s' j' [e].
Proof. intros H K. eapply does_step; [now apply says_one|apply (unstarted_did cc [e])|exact K]. Qed.
Lemma does_quiet s j s' j' : mstep (ms s j) [] (ms s' j') -> does s j s' j' [].
Proof. intro K. eapply does_step; [constructor|apply unstarted_nil|exact K]. Qed.

(** ** What stays as it is *)
Definition Inv (s : st) : Prop :=
  good s /\ x_retr (s_ctx s) = rt /\ mok (ms s Idle) /\ Forall (Forall fits) (e_cbs (s_env s)).
Definition stays (s s' : st) : Prop := x_retr (s_ctx s') = x_retr (s_ctx s) /\ (e_cbs (s_env s') = e_cbs (s_env s) \/ e_cbs (s_env s') = tl (e_cbs (s_env s))).
Lemma sentb_stays bs s ok s' t : sentb bs s ok s' t -> stays s s'.
Proof.
  intros (k & l & _ & _ & _ & (a & b & E) & _ & _ & H). split; [|left; rewrite E; reflexivity].
  destruct H as [(_ & ->)|(_ & _ & ->)]; [reflexivity|]. unfold transport_broke. destruct (cstatus_beq _ _); reflexivity.
Qed.
Lemma atom_stays d s s' t : atom d s s' t -> stays s s'.
Proof.
  destruct 1.
  - destruct H as (_ & _ & _ & _ & E). destruct H0 as (_ & _ & E2). split; auto.
  - split; auto.
  - eapply sentb_stays; eauto.
  - split; auto.
  - apply sentb_stays in H1. exact H1.
Qed.
Lemma catom_stays k s s' t : catom G k s s' t -> stays s s'.
Proof.
  destruct 1.
  - eapply atom_stays; eauto.
  - split; [rewrite H3; reflexivity|]. destruct H0 as (x & y & z & ->). now left.
  - split; auto.
  - split; [|auto]. cbn. unfold transport_broke. destruct (cstatus_beq _ _); reflexivity.
  - eapply sentb_stays; eauto.
  - split; auto.
  - eapply sentb_stays; eauto.
Qed.
Definition fit_env (s : st) : Prop := x_retr (s_ctx s) = rt /\ Forall (Forall fits) (e_cbs (s_env s)).
Lemma stays_fit s s' : stays s s' -> fit_env s -> fit_env s'.
Proof.
  intros (E & H) (K1 & K2). split; [congruence|]. destruct H as [-> | ->]; auto. destruct (e_cbs (s_env s)); auto. now inversion K2.
Qed.
Lemma path_fit d s s' t : Path d s s' t -> fit_env s -> fit_env s'.
Proof. induction 1; auto. intro. apply IHPath. eapply stays_fit; [eapply atom_stays; eauto|auto]. Qed.
Lemma cpath_fit k s s' t : CPath G k s s' t -> fit_env s -> fit_env s'.
Proof. induction 1; auto. intro. apply IHCPath. eapply stays_fit; [eapply catom_stays; eauto|auto]. Qed.
Lemma ms_ok s j : Inv s -> job_ok j -> mok (ms s j).
Proof. intros (_ & _ & (H1 & H2 & _) & _) H. split; auto. Qed.
Lemma inv_next k s s' j j' t : Inv s -> job_ok j -> CPath G k s s' t -> does s j s' j' t -> Inv s' /\ job_ok j'.
Proof.
  intros HI Hj P (l & _ & R & _). pose proof (run_ok _ _ _ _ _ R (ms_ok _ _ HI Hj)) as (K1 & K2 & K3). destruct HI as (H1 & H2 & H3 & H4).
  destruct (cpath_fit _ _ _ _ P (conj H2 H4)) as (F1 & F2). split; auto. split; [eapply cpath_good; eauto|]. split; auto. split; auto. split; auto. split; auto. exact I.
Qed.

(** ** Calls *)
Lemma session_same s s' : x_recs (s_ctx s') = x_recs (s_ctx s) -> session_of n m s' = session_of n m s.
Proof. intro E. unfold session_of, outgoing, incoming. now rewrite E. Qed.
(** a packet sent that changes nothing else *)
Lemma send_does p j s ok s' t : (forall l ok c', sends p Connected ok l c' -> mstep (mkM Connected (session_of n m s) (x_nextId (s_ctx s)) j) l (mkM c' (session_of n m s) (x_nextId (s_ctx s)) j)) ->
  match p with KConnect _ => False | _ => True end -> x_status (s_ctx s) = Connected -> sentb (bytes p) s ok s' t -> does s j s' j t.
Proof.
  intros K Hp Hc H. pose proof (sentb_recs _ _ _ _ _ H) as E1. pose proof (sentb_next _ _ _ _ _ H) as E2.
  destruct (sentb_says _ _ _ _ _ H) as (l & S1 & S2). rewrite Hc in S2. pose proof (unstarted_sends cc _ _ _ _ _ S2 Hp) as U. apply K in S2. eapply does_step; [exact S1|exact U|].
  unfold ms. rewrite (session_same _ _ E1), E2, Hc. exact S2.
Qed.
Lemma reserve_fails se id q : ok_of (spec_step se (Reserve id q)) <> Success -> snd (spec_step se (Reserve id q)) = se.
Proof.
  unfold ok_of. cbn [spec_step]. destruct (qos_beq q Q0); auto. destruct (id =? 0); auto. unfold spec_add.
  destruct (in_flight _ _); [destruct se; auto|]. destruct (_ <? _)%nat; [cbn; congruence|destruct se; auto].
Qed.
Lemma reserve_view c p id rst r1 : Reach n m c -> p_qos p <> Q0 -> outRecs c <> None -> reserve_step p id c = Ok (rst, r1) ->
  let r := spec_step (view n m c) (Reserve id (p_qos p)) in
  view n m r1 = snd r /\ Reach n m r1 /\ rst = (if status_beq (ok_of r) StateCollision && p_dup p then Success else ok_of r).
Proof.
  intros HR Hq Ho H r. assert (Hn : n <> 0%nat). { intros ->. apply Ho. apply (reach_shape _ _ _ HR). auto. }
  destruct (reach_step n m c (Reserve id (p_qos p)) HR) as (c' & E & V & R'); [destruct (p_qos p); cbn; auto|].
  fold r in E, V. cbn [to_call engine_step] in E.
  assert (H' : (let! (st, r1) := reserveState c id (p_qos p) in Ok (if status_beq st StateCollision && p_dup p then Success else st, r1)) = Ok (rst, r1)).
  { unfold reserve_step in H. destruct (p_qos p); [congruence|exact H..]. }
  destruct (reserveState c id (p_qos p)) as [[st c1]|]; cbn [rbind] in E, H'; [|discriminate].
  assert (c1 = c' /\ (st, None) = fst r) as (-> & Er) by (split; congruence). assert (r1 = c') by congruence. subst r1.
  split; auto. split; auto. unfold ok_of. rewrite <- Er. cbn [fst]. congruence.
Qed.
Lemma published_view c id q st ns r2 : Reach n m c -> q <> Q0 -> updateStatePublishApi c id OpSend q = Ok (st, ns, r2) ->
  view n m r2 = snd (spec_step (view n m c) (Published id OpSend q)).
Proof.
  intros HR Hq H. destruct (reach_step n m c (Published id OpSend q) HR) as (c' & E & V & R'); [destruct q; exact I|].
  cbn [to_call engine_step] in E. rewrite H in E. cbn [rbind] in E. assert (r2 = c') by congruence. now subst.
Qed.
Lemma publish_does p id j s st s' t : Inv s -> u16_ok id -> pub_sound p -> publish G p id s = Ret st s' t -> does s j s' j t.
Proof.
  intros HI Hid Hp H. pose proof (proj1 (proj1 HI)) as HR. apply publish_spec in H.
  destruct H as [(-> & -> & _ & _)|(Hc & Hv & rl & ps & h & hs & rst & r1 & K1 & K2 & K3 & K4)]; [apply does_refl|].
  assert (Ht : p_topic p <> None) by (intro E; unfold getPublishPacketSize in K1; rewrite E in K1; discriminate).
  assert (Hy : p_payload p = None -> p_paylen p = 0).
  { intro E. unfold validatePublishParams in Hv. rewrite E in Hv. destruct Hp as (_ & _ & Hp & _).
    destruct (_ && (id =? 0)); [discriminate|]. rewrite andb_true_r in Hv. destruct (0 <? p_paylen p) eqn:E0; [discriminate|]. lia. }
  destruct (pub_sound_means p id Hp Hid Ht Hy) as (msg & Hm).
  destruct (publish_prepared _ _ _ _ _ _ _ Hm K1 K2) as (Hne & Hmax & -> & -> & (vs & Ev & Ec) & (vd0 & Evd & Ecd)).
  pose proof Hm as (Mq & Mr & Md & Mi & _ & Mtl & Mt & _).
  assert (Hpk : pkt_ok (KPublish msg)).
  { cbn. split; [split; auto|split; auto].
    - unfold str_ok. apply holds_len in Mt. lia.
    - intro Hq. rewrite <- Mq in Hq. destruct (publish_params _ _ _ Hv Hq) as (_ & K). unfold id_ok, u16_ok in *. lia. }
  cbv zeta in K4. destruct (qos_beq (p_qos p) Q0) eqn:Eq.
  - assert (Eq0 : p_qos p = Q0) by (destruct (p_qos p); discriminate || reflexivity).
    unfold reserve_step in K3. rewrite Eq0 in K3. assert (rst = Success /\ r1 = x_recs (s_ctx s)) as (-> & ->) by (split; congruence).
    destruct K4 as [(Hn & _)|(_ & vd & ok & e & te & S1 & _ & S3)]; [congruence|]. unfold store_step in S1. rewrite Eq in S1. cbn [negb andb] in S1. destruct S1 as (-> & -> & ->).
    destruct S3 as [(K & _)|(_ & vs' & sok & t1 & s1 & S3 & S4 & -> & S5)]; [discriminate|]. assert (vs' = vs) by congruence. subst vs'. rewrite Ec in S4. cbn [app].
    assert (s' = s1) as -> by (rewrite Eq0 in S5; destruct S5 as [(_ & _ & ?)|(_ & _ & ?)]; auto).
    replace (mkSt (set_recs (s_ctx s) (x_recs (s_ctx s))) (s_env s)) with s in S4 by (destruct s as [[] ?]; reflexivity).
    apply (send_does (KPublish msg) j s sok); auto. intros l ok c' Hs. eapply s_publish0; eauto. congruence.
  - assert (Hq : p_qos p <> Q0) by (intro K; rewrite K in Eq; discriminate). destruct (publish_params _ _ _ Hv Hq) as (Ho & Hi0).
    destruct (reserve_view _ _ _ _ _ HR Hq Ho K3) as (V1 & R1 & Er). set (r := spec_step (view n m (x_recs (s_ctx s))) (Reserve id (p_qos p))) in *.
    destruct K4 as [(Hn & -> & -> & ->)|(Es & vd & ok & e & te & S1 & S2 & S3)].
    { assert (Ef : ok_of r <> Success) by (destruct (_ && _) in Er; congruence).
      eapply does_same; [reflexivity| |apply does_refl]. unfold ms. cbn [s_ctx set_recs x_status x_nextId]. f_equal.
      change (session_of n m (mkSt (set_recs (s_ctx s) r1) (s_env s))) with (view n m r1). rewrite V1. unfold r. now rewrite reserve_fails. }
    assert (Hr : ok_of r = Success \/ ok_of r = StateCollision /\ pm_dup msg = true).
    { rewrite Es in Er. destruct (status_beq (ok_of r) StateCollision && p_dup p) eqn:E; [|left; auto]. right. apply andb_true_iff in E. destruct E as (E1 & E2).
      split; [destruct (ok_of r); discriminate || reflexivity|congruence]. }
    assert (Rs : r = spec_step (session_of n m s) (Reserve (pm_id msg) (pm_qos msg))) by (unfold r; rewrite <- Mi, <- Mq; reflexivity).
    assert (Hk : kept_copy rt msg ok (map Did te) /\ Says te (map Did te)).
    { unfold store_step in S1. rewrite Eq in S1. cbn [negb andb set_recs x_retr] in S1, S2. destruct HI as (_ & Hrt & _). rewrite Hrt in S1, S2. unfold kept_copy. destruct rt.
      - destruct S1 as (_ & _ & ->). split; [|now apply says_one]. exists vd. specialize (S2 eq_refl). assert (vd = vd0) by congruence. subst. split; auto.
      - destruct S1 as (-> & _ & ->). split; [auto|constructor]. }
    destruct Hk as (Hk & Hsay).
    destruct S3 as [(-> & _ & -> & ->)|(-> & vs' & sok & t1 & s1 & S3 & S4 & -> & S5)].
    + rewrite <- (app_nil_r te). eapply (does_step _ _ _ _ _ (map Did te ++ [])); [apply says_app; [auto|constructor]|rewrite app_nil_r; apply unstarted_did|].
      unfold ms. rewrite Hc. cbn [s_ctx set_recs x_status x_nextId]. rewrite Hc.
      change (session_of n m (mkSt (set_recs (s_ctx s) r1) e)) with (view n m r1). rewrite V1. rewrite Rs.
      apply (s_publish rt cn _ _ j msg false (map Did te) false [] Connected Hpk); auto; [congruence|].
      rewrite <- Rs. exact Hr.
    + assert (vs' = vs) by congruence. subst vs'. rewrite Ec in S4. pose proof (sentb_recs _ _ _ _ _ S4) as E1. pose proof (sentb_next _ _ _ _ _ S4) as E2.
      destruct (sentb_says (KPublish msg) _ _ _ _ S4) as (l & L1 & L2). cbn [s_ctx set_recs x_status x_nextId x_recs] in L2, E1, E2. rewrite Hc in L2.
      eapply (does_step _ _ _ _ _ (map Did te ++ l)); [now apply says_app|apply unstarted_app; [apply unstarted_did|exact (unstarted_sends cc _ _ _ _ _ L2 I)]|].
      assert (Ef : x_status (s_ctx s') = x_status (s_ctx s1) /\ x_nextId (s_ctx s') = x_nextId (s_ctx s) /\
        session_of n m s' = if sok then snd (spec_step (snd r) (Published (pm_id msg) OpSend (pm_qos msg))) else snd r).
      { destruct S5 as [(-> & _ & ->)|(-> & S5)].
        - split; auto. split; auto. change (session_of n m s1) with (view n m (x_recs (s_ctx s1))). rewrite E1. exact V1.
        - assert (S6 : exists ns r2, updateStatePublishApi r1 id OpSend (p_qos p) = Ok (st, ns, r2) /\
                    s' = mkSt (set_recs (s_ctx s1) r2) (s_env s1)) by (destruct (p_qos p); [congruence|exact S5..]).
          destruct S6 as (ns & r2 & S6 & ->). split; auto. split; auto.
          change (session_of n m (mkSt (set_recs (s_ctx s1) r2) (s_env s1))) with (view n m r2). rewrite <- V1, <- Mi, <- Mq. eapply published_view; eauto. }
      destruct Ef as (F1 & F2 & F3). unfold ms. rewrite Hc, F1, F2, F3, Rs.
      apply (s_publish rt cn _ _ j msg true (map Did te) sok l _ Hpk); auto; [congruence|]. rewrite <- Rs. exact Hr.
Qed.

Lemma cut_len (l : list subinfo) count : 0 <= count <= zlen l -> zlen (firstn (Z.to_nat count) l) = count.
Proof. intro H. unfold zlen in *. rewrite firstn_length. lia. Qed.
Lemma entries_cut l count : 0 <= count <= zlen l -> sub_entries (firstn (Z.to_nat count) l) count = sub_entries l count.
Proof.
  intro H. unfold sub_entries. rewrite (cut_len _ _ H). replace (count <=? count) with true by lia. replace (count <=? zlen l) with true by lia.
  rewrite firstn_firstn. do 2 f_equal. lia.
Qed.
Lemma subscribe_cut l count id s : 0 <= count <= zlen l -> subscribe G (Some l) count id s = subscribe G (Some (firstn (Z.to_nat count) l)) (zlen (firstn (Z.to_nat count) l)) id s.
Proof.
  intro H. rewrite (cut_len _ _ H). unfold subscribe, validateSubUnsub, getSubscribePacketSize, calculateSubscriptionPacketSize.
  now rewrite (entries_cut _ _ H).
Qed.
Lemma unsubscribe_cut l count id s : 0 <= count <= zlen l -> unsubscribe G (Some l) count id s = unsubscribe G (Some (firstn (Z.to_nat count) l)) (zlen (firstn (Z.to_nat count) l)) id s.
Proof.
  intro H. rewrite (cut_len _ _ H). unfold unsubscribe, validateSubUnsub, getUnsubscribePacketSize, calculateSubscriptionPacketSize.
  now rewrite (entries_cut _ _ H).
Qed.
Lemma mean_sizes l fs : subs_mean l fs -> Forall (fun f => name_ok (fst f)) fs /\
  zlen (flat_map (fun f => mstr (fst f) ++ [qos_val (snd f)]) fs) + 2 = fold_right (fun x k => s_len x + 3 + k) 2 l /\
  zlen (flat_map mstr (map fst fs)) + 2 <= fold_right (fun x k => s_len x + 3 + k) 2 l.
Proof.
  induction 1 as [|x f l fs H _ (I1 & I2 & I3)]; [cbn; repeat split; auto; lia|]. destruct H as (K3 & K1 & K2).
  cbn [flat_map map fold_right fst snd]. rewrite !zlen_app, !zlen_mstr. change (zlen [qos_val (snd f)]) with 1.
  pose proof (holds_len _ _ _ K3). split; [|split; lia].
  constructor; auto. split; [|unfold str_ok; lia]. intro E. rewrite E in *. change (zlen (@nil Z)) with 0 in *. lia.
Qed.
Lemma subscribe_sent subs count id s st s' t : u16_ok id -> subs_sound subs count -> subscribe G subs count id s = Ret st s' t ->
  s' = s /\ t = [] \/
  exists l fs, subs = Some l /\ 0 < id < 65536 /\ 0 < count <= zlen l /\ subs_mean (firstn (Z.to_nat count) l) fs.
Proof.
  intros Hid Hs H. unfold subscribe in H. mgo H.
  match goal with HV : validateSubUnsub _ _ _ _ = _ |- _ => rename HV into Hval end.
  pose proof Hval as Hv2. apply validate_spec in Hval; destruct Hval as (-> & -> & Hval).
  destruct Hval as [-> | ->]; mgo H; [|left; auto].
  unfold validateSubUnsub in Hv2. destruct subs as [l|]; [|discriminate]. destruct (count =? 0) eqn:E0; [discriminate|]. destruct (id =? 0) eqn:E1; [discriminate|].
  assert (K : (p = Success /\ exists x, q = Some x) \/ (p = BadParameter /\ q = None)).
  { unfold getSubscribePacketSize in L. rewrite E0 in L. eapply subsize_kinds; eauto. }
  destruct K as [(-> & [rl ps] & ->)|(-> & ->)]; [|mgo H; left; auto].
  unfold getSubscribePacketSize in L. rewrite E0 in L. destruct (subsize_means G HM _ _ _ _ _ Hs (ltac:(lia)) L) as (_ & _ & fs & Hf).
  right. exists l, fs. destruct Hs as (Hs & _). unfold u16_ok in Hid. split; auto. split; [lia|]. split; [lia|auto].
Qed.
Lemma unsubscribe_sent subs count id s st s' t : u16_ok id -> subs_sound subs count -> unsubscribe G subs count id s = Ret st s' t ->
  s' = s /\ t = [] \/
  exists l fs, subs = Some l /\ 0 < id < 65536 /\ 0 < count <= zlen l /\ subs_mean (firstn (Z.to_nat count) l) fs.
Proof.
  intros Hid Hs H. unfold unsubscribe in H. mgo H.
  match goal with HV : validateSubUnsub _ _ _ _ = _ |- _ => rename HV into Hval end.
  pose proof Hval as Hv2. apply validate_spec in Hval; destruct Hval as (-> & -> & Hval).
  destruct Hval as [-> | ->]; mgo H; [|left; auto].
  unfold validateSubUnsub in Hv2. destruct subs as [l|]; [|discriminate]. destruct (count =? 0) eqn:E0; [discriminate|]. destruct (id =? 0) eqn:E1; [discriminate|].
  assert (K : (p = Success /\ exists x, q = Some x) \/ (p = BadParameter /\ q = None)).
  { unfold getUnsubscribePacketSize in L. rewrite E0 in L. eapply subsize_kinds; eauto. }
  destruct K as [(-> & [rl ps] & ->)|(-> & ->)]; [|mgo H; left; auto].
  unfold getUnsubscribePacketSize in L. rewrite E0 in L. destruct (subsize_means G HM _ _ _ _ _ Hs (ltac:(lia)) L) as (_ & _ & fs & Hf).
  right. exists l, fs. destruct Hs as (Hs & _). unfold u16_ok in Hid. split; auto. split; [lia|]. split; [lia|auto].
Qed.
Lemma mean_some count (l : list subinfo) fs : 0 < count <= zlen l -> subs_mean (firstn (Z.to_nat count) l) fs -> fs <> [].
Proof. intros H K ->. inversion K as [E|]. pose proof (cut_len l count ltac:(lia)) as E2. rewrite <- E in E2. cbn in E2. lia. Qed.
Lemma subscribe_does subs count id j s st s' t : u16_ok id -> subs_sound subs count -> subs_room (g_M G) subs count ->
  subscribe G subs count id s = Ret st s' t -> does s j s' j t.
Proof.
  intros Hid Hs Hroom H. destruct (subscribe_sent _ _ _ _ _ _ _ Hid Hs H) as [(-> & ->)|(l & fs & -> & Hi & Hc & Hm)]; [apply does_refl|].
  rewrite subscribe_cut in H by lia. destruct (mean_sizes _ _ Hm) as (N1 & N2 & _). pose proof (mean_some _ _ _ Hc Hm) as Hne. cbn [subs_room] in Hroom.
  assert (Hlen : zlen (subscribe_body id fs) < g_M G) by (unfold subscribe_body; rewrite zlen_app, zlen_be16; lia).
  apply (subscribe_spec G _ fs) in H; auto. destruct (subs_need_state _ _ || _) eqn:Eb; [destruct H as (_ & -> & ->); apply does_refl|].
  apply orb_false_iff in Eb. destruct Eb as (_ & Eb).
  destruct (x_status (s_ctx s)) eqn:Ec; try (destruct H as (_ & -> & ->); apply does_refl).
  destruct H as (ok & H & _). apply (send_does (KSubscribe id fs) j s ok); auto.
  intros l0 ok0 c' HS. apply (s_subscribe rt cn _ _ j id fs ok0); auto. cbn [pkt_ok]. unfold id_ok. split; [lia|]. split; [auto|]. split; [auto|lia].
Qed.
Lemma unsubscribe_does subs count id j s st s' t : u16_ok id -> subs_sound subs count -> subs_room (g_M G) subs count ->
  unsubscribe G subs count id s = Ret st s' t -> does s j s' j t.
Proof.
  intros Hid Hs Hroom H. destruct (unsubscribe_sent _ _ _ _ _ _ _ Hid Hs H) as [(-> & ->)|(l & fs & -> & Hi & Hc & Hm)]; [apply does_refl|].
  rewrite unsubscribe_cut in H by lia. destruct (mean_sizes _ _ Hm) as (N1 & _ & N2). pose proof (mean_some _ _ _ Hc Hm) as Hne. cbn [subs_room] in Hroom.
  assert (Hlen : zlen (unsubscribe_body id (map fst fs)) < g_M G) by (unfold unsubscribe_body; rewrite zlen_app, zlen_be16; lia).
  apply (unsubscribe_spec G _ fs) in H; auto. destruct (subs_need_state _ _ || _) eqn:Eb; [destruct H as (_ & -> & ->); apply does_refl|].
  apply orb_false_iff in Eb. destruct Eb as (_ & Eb).
  destruct (x_status (s_ctx s)) eqn:Ec; try (destruct H as (_ & -> & ->); apply does_refl).
  destruct H as (ok & H & _). apply (send_does (KUnsubscribe id (map fst fs)) j s ok); auto.
  intros l0 ok0 c' HS. apply (s_unsubscribe rt cn _ _ j id (map fst fs) ok0); auto. cbn [pkt_ok]. unfold id_ok. split; [lia|].
  split; [destruct fs; cbn; congruence|]. split; [now apply Forall_map|lia].
Qed.
Lemma ping_does j s st s' t : ping G s = Ret st s' t -> does s j s' j t.
Proof.
  intro H. apply ping_spec in H. destruct H as [(_ & _ & -> & ->)|(Hc & ok & s1 & H & K)]; [apply does_refl|].
  assert (D : does s j s1 j t).
  { apply (send_does KPing j s ok); auto. intros l ok0 c' HS. eapply s_ping; eauto. }
  destruct K as [(_ & _ & ->)|(_ & _ & ->)]; auto.
Qed.
Lemma disconnect_does s st s' t : disconnect G s = Ret st s' t -> does s Idle s' Idle t.
Proof.
  intro H. apply disconnect_spec in H. destruct H as [(_ & _ & -> & ->)|(Hc & ok & H & _)]; [apply does_refl|].
  pose proof (sentb_recs _ _ _ _ _ H) as E1. pose proof (sentb_next _ _ _ _ _ H) as E2.
  destruct (sentb_says KDisconnect _ _ _ _ H) as (l & S1 & S2). eapply does_step; [exact S1|exact (unstarted_sends cc _ _ _ _ _ S2 I)|].
  unfold ms. rewrite (session_same s s' E1), E2. eapply s_disconnect; eauto.
Qed.
Lemma getId_does j s st s' t : Inv s -> getPacketId s = Ret st s' t -> does s j s' j t.
Proof.
  intros (_ & _ & (_ & Hi & _) & _) H. unfold getPacketId in H. mgo H. cbn [app]. apply does_event; [reflexivity|].
  unfold ms. cbn [s_ctx set_nextId x_status x_nextId m_next ms] in *.
  replace (if x_nextId (s_ctx s) =? 65535 then 1 else u16 (x_nextId (s_ctx s) + 1)) with (next_id (x_nextId (s_ctx s))); [apply s_id|].
  unfold next_id, u16, id_ok in *. destruct (_ =? 65535) eqn:E; auto. rewrite Z.mod_small; lia.
Qed.
Lemma cancel_does id j s st s' t : Inv s -> cn = true -> cancel id s = Ret st s' t -> does s j s' j t.
Proof.
  intros HI Hcn H. pose proof (proj1 (proj1 HI)) as HR. unfold cancel in H. mgo H. destruct (outRecs (x_recs (s_ctx s))) eqn:E; [|mgo H; apply does_refl].
  apply on_recs_inv in H. destruct H as (c & E2 & -> & ->).
  assert (Hid : id <> 0) by (intros ->; unfold removeStateRecord in E2; rewrite E in E2; discriminate).
  destruct (reach_step n m (x_recs (s_ctx s)) (Cancel id) HR) as (c' & E3 & V & _); [apply (call_pre_ok n m _ _ HR); split; [auto|congruence]|].
  cbn [to_call engine_step] in E3. rewrite E2 in E3. cbn [rbind] in E3. assert (c' = c) by congruence. subst c'.
  apply does_quiet. unfold ms. change (session_of n m (mkSt (set_recs (s_ctx s) c) (s_env s))) with (view n m c). rewrite V. now apply s_cancel.
Qed.
Lemma run_op_does o j s st s' t : Inv s -> op_sound o -> fits o -> (is_disc o = true -> j = Idle) -> run_op G o s = Ret st s' t -> does s j s' j t.
Proof.
  intros HI Ho Hf Hd H. destruct o; cbn [run_op op_sound op_fits is_disc] in *.
  - destruct Ho. eapply publish_does; eauto.
  - destruct Ho. eapply subscribe_does; eauto.
  - destruct Ho. eapply unsubscribe_does; eauto.
  - eapply ping_does; eauto.
  - rewrite Hd by reflexivity. eapply disconnect_does; eauto.
  - mgo H. match goal with K : getPacketId _ = _ |- _ => apply (getId_does j) in K; auto end. now rewrite ?app_nil_r.
  - eapply cancel_does; eauto.
  - unfold checkConnectStatus in H. mgo H. apply does_refl.
Qed.
End MP.
