(** The client used from several threads: whole calls and histories. *)
From Verif Require Import Base StateModel StateSpec StateHarness StateProofs StateProofs2 SerModel WireSpec SerHarness SerProofs SerProofs2 SerProofs3 SerProofs4 SerProofs5
  CoreModel CoreHarness CoreSpec CoreProofs CoreProofs2 CoreProofs3 CoreProofs4 CoreProofs5 CoreProofs6 CoreProofs7 CoreProofs8 CoreProofs9 CoreProofs10 CoreProofs11 CoreProofs12 CoreProofs13 CoreProofs14 CoreProofs15 CoreProofs16 CoreProofs17 CoreProofs18 CoreProofs19 CoreProofs20 CoreProofs21 CoreProofs22 ConcModel ConcHarness ConcProofs ConcProofs2 ConcProofs3 ConcProofs4 ConcProofs5 ConcProofs6.

Section CP7.
Variable G : cfg.
Variables n m : nat.
Hypothesis HM : 4294967296 <= g_M G.
Hypothesis HV : 3 <= g_maxvec G.
Notation good := (good n m).
Notation CPath := (CPath G).
Notation ipost := (ipost G).
Notation csteps := (csteps G).

Definition callpost (c : call) (s : st) (r : status) (s' : st) (t : list ev) : Prop :=
  CPath true s s' t /\ (plain c = true -> ipost s r s' t) /\
  (forall id, (call_conn c = true -> ins t <> [32; 2; 0; 0]) -> once id s s' t) /\
  (call_disc c = false -> x_status (s_ctx s) <> NotConnected -> CPath false s s' t).
Lemma ctl_others s : others s (mkSt (set_ctl (s_ctx s) false) (s_env s)) [].
Proof. split; [apply path_one; apply a_local; repeat split|auto]. Qed.
Lemma others_ipost s r s' t : rx_all G s -> others s s' t -> ipost s r s' t.
Proof. intros Hr O. exact (ipost_around G s s s s' r [] [] t (others_refl s) Hr (ipost_refl G s r Hr) O). Qed.
Lemma ipost_call c s r s' t : plain c = true -> ipost s r s' t -> callpost c s r s' t.
Proof. intros Hp Hi. pose proof Hi as (P & _ & O & _). split; [now apply cpath_true|]. auto. Qed.
Lemma path_true s s' t : Path true s s' t -> CPath true s s' t.
Proof. induction 1; [constructor|]. eapply cp_step; [apply ca_atom; eauto|auto]. Qed.
Lemma call_steps c s : call_conn c = false -> call_sound c -> rx_all G s -> good s -> steps (c_run_call G c) s (callpost c s).
Proof.
  intros Hc Hs Hr Hg. destruct c as [o|ci will tmo| |]; try discriminate; cbn [c_run_call].
  - apply (steps_locked G n m HM HV); auto. intros s1 t1 O1 Hg1. split; [eapply run_op_safe; eauto; apply Hg1|]. intros a s2 t2 E.
    pose proof (run_op_frame _ _ _ _ _ _ E) as (Ei & Ev).
    destruct (is_disc o) eqn:Ed.
    + split; [eapply cpath_app; [apply cpath_path, O1|]; apply path_true; eapply run_op_path; eauto|]. split; [cbn; rewrite Ed; discriminate|].
      split; [|cbn [call_disc]; rewrite Ed; discriminate]. intros id _. apply once_calm; [apply calm_app; split; [eapply others_calm; eauto|now apply op_calm]|].
      intros Hh. left. unfold incoming in *. rewrite Ei. destruct O1 as (_ & -> & _). exact Hh.
    + apply ipost_call; [cbn; now rewrite Ed|]. apply others_ipost; auto. eapply others_trans; [exact O1|]. split; [|auto].
      eapply run_op_path; [|exact E]. congruence.
  - unfold c_processLoop. eapply (steps_bind _ _ _ _ (fun _ s1 t1 => others s s1 t1 /\ good s1)).
    + apply (steps_visit G n m HM HV); auto. intros s1 t1 O1 Hg1. split; [safe1|]. intros [] s2 t2 E. apply modc_inv in E. destruct E as (-> & ->).
      rewrite app_nil_r. pose proof (others_trans _ _ _ _ _ O1 (ctl_others s1)) as O. rewrite app_nil_r in O. split; [exact O|]. eapply good_path; [apply ctl_others|exact Hg1].
    + intros [] s1 t1 (O1 & Hg1). assert (Hr1 : rx_all G s1). { pose proof (proj1 O1) as X. apply path_same_rx in X. destruct X as (X & _). eapply same_rx_all; eauto. }
      eapply steps_weaken; [apply (iteration_steps G n m HM HV); auto|]. cbv beta. intros a s2 t2 Hi. apply ipost_call; [reflexivity|].
      pose proof (ipost_around G _ _ _ _ _ _ _ _ O1 Hr1 Hi (others_refl s2)) as J. now rewrite app_nil_r in J.
  - unfold c_receiveLoop. eapply steps_weaken; [apply (iteration_steps G n m HM HV); auto|]. cbv beta. intros a s2 t2 Hi. now apply ipost_call.
Qed.
Lemma call_csteps c s : call_sound c -> rx_all G s -> good s -> csteps (c_run_call G c) s (callpost c s).
Proof.
  intros Hs Hr Hg. destruct (call_conn c) eqn:Hc; [|apply csteps_steps; now apply call_steps].
  destruct c as [o|ci will tmo| |]; try discriminate; cbn [c_run_call].
  eapply csteps_bind; [apply (connect_steps G n m HM HV); auto|]. cbv beta. intros (r, sp) s1 t1 (P & C & K & _ & _ & L). apply csteps_ret. rewrite app_nil_r.
  split; auto. split; [discriminate|]. split; [intros id Hi; apply once_calm; auto|auto].
Qed.

Lemma shared_call c w s oa w' s' t : call_sound c -> rx_all G s -> good s -> free w -> c_run_call G c w s = Ret (oa, w') s' t ->
  match oa with
  | Some r => free w' /\ rx_all G s' /\ good s' /\ callpost c s r s' t
  | None => call_conn c = true /\ g_nest G = false /\ dead t
  end.
Proof.
  intros Hs Hr Hg Hw H. destruct oa as [r|].
  - destruct (call_csteps c s Hs Hr Hg w Hw) as (_ & K). specialize (K _ _ _ _ H). cbv beta iota in K. destruct K as (K1 & K2). split; auto.
    pose proof K2 as (P & _). split; [eapply cpath_rx; eauto|]. split; [eapply cpath_good; eauto|auto].
  - destruct (call_conn c) eqn:Hc.
    + destruct (call_csteps c s Hs Hr Hg w Hw) as (_ & K). specialize (K _ _ _ _ H). auto.
    + exfalso. destruct (call_steps c s Hc Hs Hr Hg w Hw) as (_ & K). destruct (K _ _ _ _ H) as (_ & a & E & _). discriminate.
Qed.
Lemma cbind_some {A B} (f : Mc A) (k : A -> Mc B) w s b w' s' t : cbind f k w s = Ret (Some b, w') s' t ->
  exists a w1 s1 t1 t2, f w s = Ret (Some a, w1) s1 t1 /\ k a w1 s1 = Ret (Some b, w') s' t2 /\ t = t1 ++ t2.
Proof.
  intro H. unfold cbind in H. apply bind_inv in H. destruct H as (([a|], w1) & s1 & t1 & t2 & H1 & H2 & ->); [exists a, w1, s1, t1, t2; auto|].
  apply ret_inv in H2. destruct H2; discriminate.
Qed.
Lemma calls_cons c l w s rs w' s' t : c_run_calls G (c :: l) w s = Ret (Some rs, w') s' t ->
  exists r w1 s1 t1 rs2 t2, c_run_call G c w s = Ret (Some r, w1) s1 t1 /\ c_run_calls G l w1 s1 = Ret (Some rs2, w') s' t2 /\ t = t1 ++ t2 /\ rs = r :: rs2.
Proof.
  intro H. cbn [c_run_calls] in H. apply cbind_some in H. destruct H as (r & w1 & s1 & t1 & t2 & H1 & H & ->).
  apply cbind_some in H. destruct H as (rs2 & w2 & s2 & t3 & t4 & H2 & H & ->). unfold cret in H. apply ret_inv in H. destruct H as (E & -> & ->).
  assert (rs = r :: rs2 /\ w' = w2) as (-> & ->) by (split; congruence). rewrite app_nil_r. exists r, w1, s1, t1, rs2, t3. auto.
Qed.
Lemma calls_nil w s rs w' s' t : c_run_calls G [] w s = Ret (Some rs, w') s' t -> rs = [] /\ w' = w /\ s' = s /\ t = [].
Proof. cbn [c_run_calls]. unfold cret, ret. intro H. repeat split; congruence. Qed.
Lemma shared_calls l : forall w s rs w' s' t, Forall call_sound l -> rx_all G s -> good s -> free w -> c_run_calls G l w s = Ret (Some rs, w') s' t ->
  free w' /\ rx_all G s' /\ good s'.
Proof.
  induction l as [|c l IH]; intros w s rs w' s' t Hs Hr Hg Hw H.
  - apply calls_nil in H. destruct H as (_ & -> & -> & _). auto.
  - apply calls_cons in H. destruct H as (r & w1 & s1 & t1 & rs2 & t2 & H1 & H2 & _). inversion Hs as [|? ? Hs1 Hs2]; subst.
    destruct (shared_call _ _ _ _ _ _ _ Hs1 Hr Hg Hw H1) as (A1 & A2 & A3 & _). exact (IH _ _ _ _ _ _ Hs2 A2 A3 A1 H2).
Qed.
(** every call of the history ends, or hangs right after a failed read *)
Lemma shared_calls_none l : forall w s w' s' t, Forall call_sound l -> rx_all G s -> good s -> free w -> c_run_calls G l w s = Ret (None, w') s' t ->
  existsb call_conn l = true /\ g_nest G = false /\ dead t.
Proof.
  induction l as [|c l IH]; intros w s w' s' t Hs Hr Hg Hw H; cbn [c_run_calls] in H.
  - unfold cret, ret in H. discriminate.
  - unfold cbind in H at 1. apply bind_inv in H. destruct H as ((oa, w1) & s1 & t1 & t2 & H1 & H & ->). inversion Hs as [|? ? Hs1 Hs2]; subst.
    pose proof (shared_call _ _ _ _ _ _ _ Hs1 Hr Hg Hw H1) as K. destruct oa as [r|].
    + destruct K as (A1 & A2 & A3 & _). unfold cbind in H. apply bind_inv in H. destruct H as ((ob, w2) & s2 & t3 & t4 & H2 & H & ->). destruct ob as [rs|].
      * unfold cret in H. apply ret_inv in H. destruct H; discriminate.
      * apply ret_inv in H. destruct H as (_ & _ & ->). rewrite app_nil_r. destruct (IH _ _ _ _ _ Hs2 A2 A3 A1 H2) as (B1 & B2 & B3).
        split; [cbn [existsb]; rewrite B1; apply orb_true_r|]. split; [auto|now apply dead_app].
    + destruct K as (A1 & A2 & A3). apply ret_inv in H. destruct H as (_ & _ & ->). rewrite app_nil_r. split; [cbn [existsb]; now rewrite A1|auto].
Qed.
Lemma shared_calls_safe l : forall w s, Forall call_sound l -> rx_all G s -> good s -> free w -> c_run_calls G l w s <> Undef.
Proof.
  induction l as [|c l IH]; intros w s Hs Hr Hg Hw; cbn [c_run_calls]; [discriminate|]. inversion Hs as [|? ? Hs1 Hs2]; subst.
  destruct (call_csteps c s Hs1 Hr Hg w Hw) as (A & _). unfold cbind, bind. destruct (c_run_call G c w s) as [(oa, w1) s1 t1| |] eqn:E; [|contradiction|discriminate].
  destruct oa as [r|]; [|discriminate]. destruct (shared_call _ _ _ _ _ _ _ Hs1 Hr Hg Hw E) as (B1 & B2 & B3 & _).
  pose proof (IH w1 s1 Hs2 B2 B3 B1) as C. destruct (c_run_calls G l w1 s1) as [(ob, w2) s2 t2| |]; [|contradiction|discriminate]. destruct ob; discriminate.
Qed.
(** ** Framing *)
Lemma shared_framed l : forall w s rs w' s' t, Forall call_sound l -> rx_all G s -> good s -> free w -> forallb plain l = true -> ~ In RecvFailed rs ->
  c_run_calls G l w s = Ret (Some rs, w') s' t -> framed G s s' t.
Proof.
  induction l as [|c l IH]; intros w s rs w' s' t Hs Hr Hg Hw Hp Hn H.
  - apply calls_nil in H. destruct H as (_ & -> & -> & ->). apply framed_path; [apply Hr|constructor].
  - apply calls_cons in H. destruct H as (r & w1 & s1 & t1 & rs2 & t2 & H1 & H2 & -> & ->). inversion Hs as [|? ? Hs1 Hs2]; subst.
    cbn [forallb] in Hp. apply andb_true_iff in Hp. destruct Hp as (Hp1 & Hp2).
    destruct (shared_call _ _ _ _ _ _ _ Hs1 Hr Hg Hw H1) as (A1 & A2 & A3 & _ & A4 & _). destruct (A4 Hp1) as (_ & F & _).
    eapply framed_trans; [apply F; intro; apply Hn; now left|]. assert (Hn2 : ~ In RecvFailed rs2) by (intro; apply Hn; now right). exact (IH _ _ _ _ _ _ Hs2 A2 A3 A1 Hp2 Hn2 H2).
Qed.
(** ** Sending *)
Lemma shared_live l : forall w s rs w' s' t, Forall call_sound l -> rx_all G s -> good s -> free w -> existsb call_disc l = false ->
  existsb call_conn l = false \/ x_status (s_ctx s) <> NotConnected -> c_run_calls G l w s = Ret (Some rs, w') s' t -> clive s s' t.
Proof.
  induction l as [|c l IH]; intros w s rs w' s' t Hs Hr Hg Hw Hd Hc H.
  - apply calls_nil in H. destruct H as (_ & -> & -> & ->). now apply clive_quiet.
  - apply calls_cons in H. destruct H as (r & w1 & s1 & t1 & rs2 & t2 & H1 & H2 & -> & ->). inversion Hs as [|? ? Hs1 Hs2]; subst.
    cbn [existsb] in Hd, Hc. apply orb_false_iff in Hd. destruct Hd as (Hd1 & Hd2).
    destruct (shared_call _ _ _ _ _ _ _ Hs1 Hr Hg Hw H1) as (A1 & A2 & A3 & _ & A4 & _ & A5).
    assert (P : CPath false s s1 t1).
    { destruct Hc as [Hc|Hc]; [|auto]. apply orb_false_iff in Hc. destruct Hc as (Hc & _). apply A4. destruct c; try discriminate; cbn in *; auto. now rewrite Hd1. }
    apply cpath_clive in P. eapply clive_trans; [exact P|].
    assert (Hc2 : existsb call_conn l = false \/ x_status (s_ctx s1) <> NotConnected).
    { destruct Hc as [Hc|Hc]; [left; apply orb_false_iff in Hc; apply Hc|right]. unfold clive in P. destruct (x_status (s_ctx s)); [contradiction| |]; destruct P as (P1 & P2); [congruence|apply P2]. }
    exact (IH _ _ _ _ _ _ Hs2 A2 A3 A1 Hd2 Hc2 H2).
Qed.
(** ** Deliveries *)
Lemma shared_held id l : forall w s rs w' s' t, Forall call_sound l -> rx_all G s -> good s -> free w -> c_same_session G l w s ->
  c_run_calls G l w s = Ret (Some rs, w') s' t ->
  held id (incoming s) -> forall t1 e q t2, t = t1 ++ e :: t2 -> delivery e = Some (id, q) -> completed id t1.
Proof.
  induction l as [|c l IH]; intros w s rs w' s' t Hs Hr Hg Hw Hc H Hh t1 e q t2 Et He.
  - apply calls_nil in H. destruct H as (_ & -> & -> & ->). destruct t1; discriminate.
  - apply calls_cons in H. destruct H as (r & w1 & s1 & u1 & rs2 & u2 & H1 & H2 & -> & ->). inversion Hs as [|? ? Hs1 Hs2]; subst.
    cbn [c_same_session] in Hc. rewrite H1 in Hc. destruct Hc as (Hc1 & Hc2).
    destruct (shared_call _ _ _ _ _ _ _ Hs1 Hr Hg Hw H1) as (A1 & A2 & A3 & _ & _ & A4 & _). destruct (A4 id Hc1) as (A & _). destruct (A Hh) as (B1 & B2).
    apply split_app in Et. destruct Et as [(v & -> & _)|(v & -> & E)].
    + exfalso. apply (B1 e q); auto. apply in_or_app. right. now left.
    + destruct B2 as [B2|B2]; [|now apply completed_app_l]. apply completed_app_r. exact (IH _ _ _ _ _ _ Hs2 A2 A3 A1 Hc2 H2 B2 _ _ _ _ E He).
Qed.
Lemma shared_once id l : forall w s rs w' s' t, Forall call_sound l -> rx_all G s -> good s -> free w -> c_same_session G l w s ->
  c_run_calls G l w s = Ret (Some rs, w') s' t ->
  forall t1 e q t2 e' t3, t = t1 ++ e :: t2 ++ e' :: t3 -> delivery e = Some (id, Q2) -> delivery e' = Some (id, q) -> completed id t2.
Proof.
  induction l as [|c l IH]; intros w s rs w' s' t Hs Hr Hg Hw Hc H t1 e q t2 e' t3 Et He He'.
  - apply calls_nil in H. destruct H as (_ & -> & -> & ->). destruct t1; discriminate.
  - apply calls_cons in H. destruct H as (r & w1 & s1 & u1 & rs2 & u2 & H1 & H2 & -> & ->). inversion Hs as [|? ? Hs1 Hs2]; subst.
    cbn [c_same_session] in Hc. rewrite H1 in Hc. destruct Hc as (Hc1 & Hc2).
    destruct (shared_call _ _ _ _ _ _ _ Hs1 Hr Hg Hw H1) as (A1 & A2 & A3 & _ & _ & A4 & _). destruct (A4 id Hc1) as (_ & B).
    apply split_app in Et. destruct Et as [(v & -> & E)|(v & -> & E)].
    + destruct (B _ _ _ eq_refl He) as (_ & B2 & B3). symmetry in E. apply split_app in E. destruct E as [(v' & -> & _)|(v' & -> & E)].
      * rewrite (B2 e') in He'; [discriminate|]. apply in_or_app. right. now left.
      * apply completed_app_r. exact (shared_held id l _ _ _ _ _ _ Hs2 A2 A3 A1 Hc2 H2 B3 _ _ _ _ E He').
    + exact (IH _ _ _ _ _ _ Hs2 A2 A3 A1 Hc2 H2 _ _ _ _ _ _ E He He').
Qed.
End CP7.

(** ** Clients in use *)
Lemma legal_inv G n m l w s : legal G n m l w s -> 4294967296 <= g_M G /\ 3 <= g_maxvec G /\ rx_all G s /\ good n m s /\ free w /\ Forall call_sound l.
Proof.
  intros (Ho & HV & Hcb & Hs & Hw).
  assert (HM : 4294967296 <= g_M G) by (destruct Ho as (b & r & e & X & _); exact X). split; auto. split; auto.
  apply opened_inv in Ho. destruct Ho as (A1 & A2 & A3). split; auto. split; [exact (conj A2 (conj A3 Hcb))|]. auto.
Qed.
Lemma shared_inv G n m w s : Shared G n m w s -> 4294967296 <= g_M G /\ 3 <= g_maxvec G /\ rx_all G s /\ good n m s /\ free w.
Proof.
  intros (s0 & l & w0 & rs & t & Hl & H). destruct (legal_inv _ _ _ _ _ _ Hl) as (HM & HV & Hr & Hg & Hw & Hs).
  destruct (shared_calls G n m HM HV l w0 s0 rs w s t Hs Hr Hg Hw H) as (B1 & B2 & B3). auto.
Qed.

Lemma alone G l w s : w_held w = false -> still w ->
  match c_run_calls G l w s with
  | Ret (Some rs, _) s' t => run_calls G l s = Ret rs s' t
  | Ret (None, _) _ t => existsb call_conn l = true /\ g_nest G = false /\ dead t
  | Undef => run_calls G l s = Undef
  | Stuck => run_calls G l s = Stuck
  end.
Proof.
  intros Hw Hs. pose proof (sim_calls G l s w Hw (fun _ => Hs)) as H. destruct (c_run_calls G l w s) as [[[rs|] w'] s' t| |]; auto. apply H.
Qed.
Lemma legal_safe G n m l w s : legal G n m l w s -> c_run_calls G l w s <> Undef.
Proof. intro H. destruct (legal_inv _ _ _ _ _ _ H) as (HM & HV & Hr & Hg & Hw & Hs). eapply shared_calls_safe; eauto. Qed.
Lemma legal_hang G n m l w s w' s' t : legal G n m l w s -> c_run_calls G l w s = Ret (None, w') s' t -> existsb call_conn l = true /\ g_nest G = false /\ dead t.
Proof. intro H. destruct (legal_inv _ _ _ _ _ _ H) as (HM & HV & Hr & Hg & Hw & Hs). eapply shared_calls_none; eauto. Qed.
Lemma legal_returns G n m l w s w' s' t : legal G n m l w s -> g_nest G = true -> c_run_calls G l w s <> Ret (None, w') s' t.
Proof. intros H Hn E. destruct (legal_hang _ _ _ _ _ _ _ _ _ H E) as (_ & E2 & _). congruence. Qed.
Lemma alone_nest G l w s : g_nest G = true -> w_held w = false -> still w ->
  exists w', c_run_calls G l w s = (let* rs := run_calls G l in ret (Some rs, w')) s.
Proof.
  intros Hn Hw Hs. pose proof (sim_calls G l s w Hw (fun _ => Hs)) as H. unfold bind, ret. destruct (c_run_calls G l w s) as [[[rs|] w'] s' t| |].
  - destruct H as (-> & _). exists w'. now rewrite app_nil_r.
  - destruct H as (_ & E & _). congruence.
  - exists w. now rewrite H.
  - exists w. now rewrite H.
Qed.
Lemma shared_state G n m w s : Shared G n m w s ->
  0 <= x_index (s_ctx s) <= zlen (x_buf (s_ctx s)) /\ NoDup (ids (outgoing s)) /\ NoDup (ids (incoming s)) /\
  ~ In 0 (ids (outgoing s)) /\ ~ In 0 (ids (incoming s)).
Proof.
  intro H. destruct (shared_inv _ _ _ _ _ H) as (_ & _ & ((_ & Hi & _) & _) & (Hg & _) & _). split; [exact Hi|]. exact (ids_unique _ _ _ Hg).
Qed.
Lemma shared_frames G n m l w s rs w' s' t : Shared G n m w s -> Forall call_sound l -> forallb plain l = true -> ~ In RecvFailed rs ->
  c_run_calls G l w s = Ret (Some rs, w') s' t ->
  zlen (x_buf (s_ctx s')) = zlen (x_buf (s_ctx s)) /\ e_in (s_env s) = ins t ++ e_in (s_env s') /\
  exists bytes, Frames (zlen (x_buf (s_ctx s))) (items t) bytes /\ pend (s_ctx s) ++ ins t = bytes ++ pend (s_ctx s').
Proof.
  intros H Hs Hp Hn E. destruct (shared_inv _ _ _ _ _ H) as (HM & HV & Hr & Hg & Hw).
  destruct (shared_framed G n m HM HV l w s rs w' s' t Hs Hr Hg Hw Hp Hn E) as (A & _ & B & C). auto.
Qed.
Lemma shared_delivered G n m id l w s rs w' s' t : Shared G n m w s -> Forall call_sound l -> c_same_session G l w s ->
  c_run_calls G l w s = Ret (Some rs, w') s' t ->
  forall t1 e q t2 e' t3, t = t1 ++ e :: t2 ++ e' :: t3 -> delivery e = Some (id, Q2) -> delivery e' = Some (id, q) -> completed id t2.
Proof.
  intros H Hs Hc E. destruct (shared_inv _ _ _ _ _ H) as (HM & HV & Hr & Hg & Hw).
  exact (shared_once G n m HM HV id l w s rs w' s' t Hs Hr Hg Hw Hc E).
Qed.
Lemma shared_answered G n m mk w s w' s' t ty body : Shared G n m w s ->
  c_run_call G (if mk : bool then CProcess else CReceive) w s = Ret (Some Success, w') s' t ->
  In (EPkt ty body) t -> forall kind id, asks_reply ty body kind id -> exists a b, outs t = a ++ ack_packet kind id ++ b.
Proof.
  intros H E Hi. destruct (shared_inv _ _ _ _ _ H) as (HM & HV & Hr & Hg & Hw).
  assert (Hc : call_sound (if mk then CProcess else CReceive)) by (destruct mk; exact I).
  destruct (shared_call G n m HM HV _ _ _ _ _ _ _ Hc Hr Hg Hw E) as (_ & _ & _ & _ & A & _).
  assert (Hp : plain (if mk then CProcess else CReceive) = true) by (destruct mk; reflexivity).
  destruct (A Hp) as (_ & _ & _ & _ & B). exact (B eq_refl ty body Hi).
Qed.
Lemma shared_sends G n m l w s rs w' s' t : Shared G n m w s -> Forall call_sound l -> existsb call_disc l = false ->
  c_run_calls G l w s = Ret (Some rs, w') s' t ->
  (x_status (s_ctx s) = Connected -> hushed t /\ x_status (s_ctx s') <> NotConnected /\ (In EOutErr t -> x_status (s_ctx s') = DisconnectPending)) /\
  (x_status (s_ctx s) = DisconnectPending -> outs t = [] /\ x_status (s_ctx s') = DisconnectPending) /\
  (x_status (s_ctx s) = NotConnected -> existsb call_conn l = false -> outs t = [] /\ x_status (s_ctx s') = NotConnected).
Proof.
  intros H Hs Hd E. destruct (shared_inv _ _ _ _ _ H) as (HM & HV & Hr & Hg & Hw).
  assert (K : existsb call_conn l = false \/ x_status (s_ctx s) <> NotConnected -> clive s s' t).
  { intro K. exact (shared_live G n m HM HV l w s rs w' s' t Hs Hr Hg Hw Hd K E). }
  unfold clive in K. split; [|split].
  - intro Es. rewrite Es in K. destruct K as (A & B & C); [right; discriminate|]. split; auto. split; auto. intro Hi. apply C. now apply serrs_in.
  - intro Es. rewrite Es in K. apply K. right. discriminate.
  - intros Es Hc. rewrite Es in K. apply K. now left.
Qed.
Lemma shared_noticed G n m c w s r w' s' t : Shared G n m w s -> call_sound c -> plain c = true -> c_run_call G c w s = Ret (Some r, w') s' t ->
  errs t = true -> x_status (s_ctx s') <> Connected.
Proof.
  intros H Hs Hp E. destruct (shared_inv _ _ _ _ _ H) as (HM & HV & Hr & Hg & Hw).
  destruct (shared_call G n m HM HV _ _ _ _ _ _ _ Hs Hr Hg Hw E) as (_ & _ & _ & _ & A & _). destruct (A Hp) as (_ & _ & _ & B & _). exact B.
Qed.
Lemma shared_connect G n m ci will cm tmo w s w' s' t sp : Shared G n m w s -> con_sound ci will -> con_means ci will cm ->
  c_connect G ci will tmo w s = Ret (Some (Success, sp), w') s' t ->
  exists (p : bool) a b, sp = Some p /\ ins t = [32; 2; if p then 1 else 0; 0] /\ (c_clean ci = true -> p = false) /\ outs t = a ++ connect_packet cm ++ b.
Proof.
  intros H Hs Hm E. destruct (shared_inv _ _ _ _ _ H) as (HM & HV & Hr & Hg & Hw).
  destruct (connect_steps G n m HM HV ci will tmo s Hs Hr Hg w Hw) as (_ & K). specialize (K _ _ _ _ E). cbv beta iota in K. destruct K as (_ & _ & _ & _ & K & _).
  destruct (K eq_refl) as (p & rl & total & vs & a & b & E1 & E2 & E3 & E4 & E5 & E6). exists p, a, b. split; auto. split; auto. split; auto.
  assert (Hne : cm_id cm <> []).
  { intro Ei. unfold getConnectPacketSize in E4. destruct Hm as (_ & _ & _ & Hid & _). apply holds_len in Hid. rewrite Ei in Hid.
    change (zlen []) with 0 in Hid. replace (c_idlen ci =? 0) with true in E4 by lia. discriminate. }
  rewrite (connect_size_ok _ _ _ Hm Hne) in E4. destruct (will_fits cm) eqn:Ew; [|discriminate].
  assert (rl = zlen (connect_body cm)) by congruence. subst rl.
  destruct (connect_vectors_ok _ _ _ Hm Ew) as (vs' & Ev' & Ec). assert (vs' = vs) by congruence. subst vs'. now rewrite <- Ec.
Qed.
