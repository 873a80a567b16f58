(** The client used from several threads: connecting, and histories. *)
From Verif Require Import Base StateModel StateSpec StateHarness StateProofs StateProofs2 SerModel WireSpec SerHarness SerProofs SerProofs2 SerProofs3 SerProofs4 SerProofs5
  CoreModel CoreHarness CoreSpec CoreProofs CoreProofs2 CoreProofs3 CoreProofs4 CoreProofs5 CoreProofs6 CoreProofs7 CoreProofs8 CoreProofs9 CoreProofs10 CoreProofs11 CoreProofs12 CoreProofs13 CoreProofs14 CoreProofs15 CoreProofs16 CoreProofs17 CoreProofs18 CoreProofs19 CoreProofs20 CoreProofs21 CoreProofs22 ConcModel ConcHarness ConcProofs ConcProofs2 ConcProofs3 ConcProofs4 ConcProofs5.

Local Notation "'let^' x ':=' m 'in' k" := (cbind m (fun x => k))
  (at level 200, x pattern, m at level 100, k at level 200).
Local Notation "m ;^ k" := (cbind m (fun _ => k)) (at level 190, right associativity).

Section CP6.
Variable G : cfg.
Variables n m : nat.
Hypothesis HM : 4294967296 <= g_M G.
Hypothesis HV : 3 <= g_maxvec G.
Notation good := (good n m).
Notation CPath := (CPath G).

(** ** The part of MQTT_Connect under the mutex, run alone *)
Lemma region_spec ci will rl tmo s st sp s' t : Reach n m (x_recs (s_ctx s)) -> bytes_ok (e_in (s_env s)) ->
  region G ci will rl tmo s = Ret (st, sp) s' t ->
  (x_status (s_ctx s) = Connected /\ st = StConnected /\ sp = None /\ s' = s /\ t = [] \/
   x_status (s_ctx s) = DisconnectPending /\ st = StDisconnectPending /\ sp = None /\ s' = s /\ t = []) \/
  x_status (s_ctx s) = NotConnected /\ (
   st = BadParameter /\ sp = None /\ s' = s /\ t = [] \/
   exists vs ok s1 t1, connect_vectors ci will rl = Ok vs /\ sentb (concat vs) s ok s1 t1 /\
    (ok = false /\ st = SendFailed /\ sp = None /\ s' = s1 /\ t = t1 \/
     ok = true /\ exists st2 s2 t2, waited (c_clean ci) st2 sp s1 s2 t2 /\
      (st2 <> Success /\ st = st2 /\ s' = s2 /\ t = t1 ++ t2 \/
       st2 = Success /\ sp = Some false /\ st = Success /\
         s' = mkSt (connected (cleaned (s_ctx s2)) (c_keepalive ci)) (s_env s2) /\
         t = t1 ++ t2 ++ (if x_retr (s_ctx s) then map EClear (pubq (tracked (outRecs (x_recs (s_ctx s))))) else []) \/
       st2 = Success /\ sp = Some true /\ st = Success /\ s' = mkSt (connected (s_ctx s2) (c_keepalive ci)) (s_env s2) /\ t = t1 ++ t2))).
Proof.
  intros Hr Hb H1. unfold region in H1.
  apply bind_inv in H1. destruct H1 as (c & sb & tc & td & H1 & H2 & ->). apply getc_inv in H1. destruct H1 as (-> & -> & ->). cbn [app].
  apply bind_inv in H2. destruct H2 as (st1 & s1 & t1 & te & H1 & H2 & ->).
  destruct (x_status (s_ctx s)) eqn:Hs; cbn [status_beq] in H1.
  2,3: left; apply ret_inv in H1; destruct H1 as (-> & -> & ->);
    unfold bind, ret, modc in H2; cbn [status_beq andb app] in H2;
    match type of H2 with Ret (?x, ?y) _ _ = _ => assert (st = x /\ sp = y /\ s' = s /\ te = []) as (-> & -> & -> & ->) by (repeat split; congruence) end; auto 10.
  right. split; auto. unfold sendConnectWithoutCopy in H1.
  destruct (match will with Some wl => _ | None => _ end) eqn:Ew in H1.
  { left. apply ret_inv in H1; destruct H1 as (-> & -> & ->).
    unfold bind, ret, modc in H2; cbn [status_beq andb app] in H2.
    match type of H2 with Ret (?x, ?y) _ _ = _ => assert (st = x /\ sp = y /\ s' = s /\ te = []) as (-> & -> & -> & ->) by (repeat split; congruence) end.
    auto 10. }
  right. apply bind_inv in H1. destruct H1 as (vs & s0 & t0 & tf & H1 & H3 & ->). apply lift_inv in H1. destruct H1 as (Ev & -> & ->).
  apply bind_inv in H3. destruct H3 as (r & s2 & t2 & tg & H1 & H3 & ->). apply ret_inv in H3. destruct H3 as (-> & -> & ->).
  apply sendMessageVector_spec, sent_ok_sentb in H1. cbn [app]. rewrite !app_nil_r.
  exists vs, (r =? zlen (concat vs)), s2, t2. split; auto. split; auto.
  destruct (sentb_nc _ _ _ _ _ Hs H1) as (lt & Ec).
  assert (Hs2 : x_status (s_ctx s2) = NotConnected) by (rewrite Ec; exact Hs).
  assert (Hb2 : bytes_ok (e_in (s_env s2))).
  { destruct H1 as (_ & _ & _ & _ & _ & (x1 & x2 & ->) & _). exact Hb. }
  destruct (r =? zlen (concat vs)); cbn [negb] in H2.
  2: { left. unfold bind, ret, modc in H2; cbn [status_beq andb app] in H2.
    match type of H2 with Ret (?x, ?y) _ _ = _ => assert (st = x /\ sp = y /\ s' = s2 /\ te = []) as (-> & -> & -> & ->) by (repeat split; congruence) end.
    rewrite app_nil_r. auto. }
  right. split; auto. cbn [status_beq] in H2.
  apply bind_inv in H2. destruct H2 as ((st2, sp2) & s3 & t3 & th & H3 & H2 & ->).
  apply receiveConnack_spec in H3; auto.
  exists st2, s3, t3. pose proof H3 as (bs & b & _ & _ & _ & _ & Hb3 & _ & Ec3 & K).
  assert (Hne : st2 = Success \/ (st2 <> Success /\ status_beq st2 Success = false)).
  { destruct st2; auto; right; split; auto; discriminate. }
  destruct Hne as [->|(N1 & B1)].
  2: { rewrite B1 in H2. cbn [andb] in H2. unfold bind, ret, modc in H2. cbn [app] in H2. rewrite B1 in H2. cbn [app] in H2.
    assert (st = st2 /\ sp = sp2 /\ s' = s3 /\ th = []) as (-> & -> & -> & ->) by (repeat split; congruence).
    split; [exact H3|]. left. rewrite !app_nil_r. auto. }
  destruct K as [(_ & p & Ebs & -> & Hp)|[(? & _)|[?|[?| ?]]]]; try discriminate.
  assert (Er : x_recs (s_ctx s3) = x_recs (s_ctx s) /\ x_retr (s_ctx s3) = x_retr (s_ctx s)) by (rewrite Ec3, Ec; auto). destruct Er as (Er & Ex).
  destruct (reach_walks _ _ _ Hr) as (Wp & _). rewrite <- Er in Wp.
  cbn [status_beq andb] in H2. apply bind_inv in H2. destruct H2 as (st4 & s4 & t4 & ti & H4 & H2 & ->).
  destruct p.
  - apply ret_inv in H4. destruct H4 as (-> & -> & ->). unfold bind, ret, modc in H2. cbn [status_beq app] in H2.
    match type of H2 with Ret _ ?x _ = _ => assert (st = Success /\ sp = Some true /\ s' = x /\ ti = []) as (-> & -> & -> & ->) by (repeat split; congruence) end.
    split; [exact H3|]. right. right. cbn [app]. rewrite !app_nil_r. auto 10.
  - eapply clean_spec in H4; eauto. destruct H4 as (-> & -> & ->). unfold bind, ret, modc in H2. cbn [status_beq app] in H2.
    match type of H2 with Ret _ ?x _ = _ => assert (st = Success /\ sp = Some false /\ s' = x /\ ti = []) as (-> & -> & -> & ->) by (repeat split; congruence) end.
    split; [exact H3|]. right. left. repeat (split; [reflexivity|]). rewrite Ex, Er. rewrite !app_nil_r, <- ?app_assoc. reflexivity.
Qed.
Lemma region_safe ci will tmo rl total s : con_sound ci will -> rx_all G s -> Reach n m (x_recs (s_ctx s)) ->
  getConnectPacketSize ci will = (Success, Some (rl, total)) -> safe (region G ci will rl tmo) s.
Proof.
  intros Hs Hrx Hr E H. apply (connect_safe G n m ci will tmo s Hs Hrx Hr). rewrite connect_region, E. unfold bind at 1. now rewrite H.
Qed.
(** what the region does *)
Definition greeted (ci : coninfo) (will : option pubinfo) (rl : Z) (s : st) (r : status) (sp : option bool) (s' : CoreModel.st) (t : list ev) : Prop :=
  CPath true s s' t /\ calm_t t /\
  (r = Success -> x_status (s_ctx s) = NotConnected /\ x_status (s_ctx s') = Connected /\
     exists p : bool, sp = Some p /\ ins t = [32; 2; if p then 1 else 0; 0] /\ (c_clean ci = true -> p = false) /\
     exists vs, connect_vectors ci will rl = Ok vs /\ outs t = concat vs) /\
  (r = Success /\ sp = Some false \/ incoming s' = incoming s) /\
  (r = StConnected <-> x_status (s_ctx s) = Connected) /\ (r = StDisconnectPending <-> x_status (s_ctx s) = DisconnectPending) /\
  (x_status (s_ctx s) <> NotConnected -> s' = s /\ t = []).
Lemma recv_only_calm t : recv_only t -> calm_t t.
Proof. unfold recv_only. rewrite forallb_forall. intros H e He. specialize (H e He). destruct e; discriminate || reflexivity. Qed.
Lemma sentb_calm bs s ok s' t : sentb bs s ok s' t -> calm_t t.
Proof. intros (k & l & _ & _ & H & _). now apply send_calm. Qed.
Lemma clear_calm l : calm_t (map EClear l).
Proof. intros e He. apply in_map_iff in He. destruct He as (x & <- & _). reflexivity. Qed.
Lemma clear_outs l : outs (map EClear l) = [].
Proof. induction l; auto. Qed.
Lemma clear_ins l : ins (map EClear l) = [].
Proof. induction l; auto. Qed.
Lemma waited_c clean res sp s s' t : rx_all G s -> x_status (s_ctx s) = NotConnected -> waited clean res sp s s' t -> CPath true s s' t.
Proof.
  intros Hr Hs Hw. pose proof Hw as (bs & b & Q1 & Q2 & Q3 & Q4 & Q5 & Q6 & Q7 & _). apply cpath_one.
  eapply (ca_take _ _ _ _ _ b (x_index (s_ctx s))); [exact Q2|exact Q4|exact Q5| |].
  - assert (X : XPath G false true s s' t) by (eapply waited_x; eauto). eapply xpath_rx; eauto.
  - rewrite Q7. destruct (s_ctx s); reflexivity.
Qed.
Lemma sentb_outs bs s s' t : sentb bs s true s' t -> outs t = bs /\ errs t = false.
Proof.
  intros (k & l & Hk & Ho & Hs & _ & _ & Hok & Hc).
  pose proof (proj1 Hok eq_refl) as K. rewrite Ho. split; [rewrite K; apply firstn_all|].
  destruct Hc as [(E & _)|(K2 & _)]; auto. discriminate.
Qed.
Lemma region_greeted ci will rl tmo s st sp s' t : rx_all G s -> good s ->
  region G ci will rl tmo s = Ret (st, sp) s' t -> greeted ci will rl s st sp s' t.
Proof.
  intros Hr Hg H. apply region_spec in H; [|apply Hg|apply Hr]. unfold greeted.
  destruct H as [[(Es & -> & -> & -> & ->)|(Es & -> & -> & -> & ->)]|(Es & H)].
  1,2: rewrite Es; split; [constructor|]; split; [apply calm_nil|]; split; [discriminate|]; split; [auto|]; split; [split; congruence|]; split; [split; congruence|auto].
  destruct H as [(-> & -> & -> & ->)|(vs & ok & s1 & t1 & Hv & H1 & H)].
  { rewrite Es. split; [constructor|]; split; [apply calm_nil|]; split; [discriminate|]; split; [auto|]; split; [split; congruence|]; split; [split; congruence|contradiction]. }
  destruct (sentb_nc _ _ _ _ _ Es H1) as (l & Ec).
  assert (X1 : CPath true s s1 t1) by (apply cpath_one; eapply ca_greet; eauto).
  pose proof (cpath_rx _ _ _ _ _ X1 Hr) as Hr1. pose proof (sentb_calm _ _ _ _ _ H1) as C1.
  assert (Es1 : x_status (s_ctx s1) = NotConnected) by (rewrite Ec; exact Es).
  assert (I1 : incoming s1 = incoming s) by (unfold incoming; rewrite Ec; reflexivity).
  assert (N : forall x : status, x = SendFailed \/ x = ServerRefused \/ x = BadResponse \/ x = RecvFailed \/ x = NoDataAvailable \/ x = Success ->
     (x = StConnected <-> x_status (s_ctx s) = Connected) /\ (x = StDisconnectPending <-> x_status (s_ctx s) = DisconnectPending) /\
     (x_status (s_ctx s) <> NotConnected -> False)).
  { intros x Hx. rewrite Es. destruct Hx as [->|[->|[->|[->|[->| ->]]]]]; split; try (split; discriminate); split; try (split; discriminate); contradiction. }
  assert (N' : forall x y (z : Prop) (a : CoreModel.st) (b : list ev), x /\ y /\ (z -> False) -> x /\ y /\ (z -> a = s /\ b = [])) by tauto.
  destruct H as [(-> & -> & -> & -> & ->)|(-> & st2 & s2 & t2 & Hw & H)].
  { split; [exact X1|]. split; [exact C1|]. split; [discriminate|]. split; [auto|]. apply N', N. auto. }
  pose proof (waited_c _ _ _ _ _ _ Hr1 Es1 Hw) as X2. pose proof (cpath_rx _ _ _ _ _ X2 Hr1) as Hr2.
  pose proof Hw as (bs & b & Q1 & Q2 & Q3 & Q4 & Q5 & Q6 & Q7 & K). apply recv_only_calm in Q2.
  assert (I2 : incoming s2 = incoming s) by (unfold incoming in *; rewrite Q7; exact I1).
  assert (Es2 : x_status (s_ctx s2) = NotConnected) by (rewrite Q7; exact Es1).
  assert (Ou : outs t2 = []). { destruct Hw as (_ & _ & _ & Hro & _). now apply recv_outs. }
  assert (In1 : ins t1 = []). { pose proof (sentb_same_rx _ _ _ _ _ H1) as (_ & Z). now apply no_rx_items in Z. }
  destruct (sentb_outs _ _ _ _ H1) as (Os & _).
  destruct H as [(Hne & -> & -> & ->)|[(-> & -> & -> & -> & ->)|(-> & -> & -> & -> & ->)]].
  - split; [eapply cpath_app; eauto|]. split; [apply calm_app; auto|]. split; [contradiction|]. split; [auto|]. apply N', N.
    destruct K as [(? & _)|[(-> & _)|[->|[->| ->]]]]; auto 10.
  - destruct K as [(_ & p & E & Ep & _)|[(? & _)|[?|[?| ?]]]]; try discriminate. assert (p = false) by congruence. subst p.
    set (l2 := if x_retr (s_ctx s) then _ else _).
    assert (Hl : silent l2 /\ calm_t l2 /\ outs l2 = [] /\ ins l2 = []).
    { subst l2. destruct (x_retr (s_ctx s)); [|repeat split; auto using calm_nil]. split; [apply clear_silent|]. split; [apply clear_calm|]. split; [apply clear_outs|apply clear_ins]. }
    clearbody l2. destruct Hl as (Hl & Hl2 & Hl3 & Hl4).
    split.
    { eapply cpath_app; [exact X1|]. eapply cpath_app; [exact X2|]. rewrite <- (app_nil_l l2). eapply cp_step.
      { eapply (ca_take _ _ _ (mkSt (emptied (s_ctx s2)) (s_env s2)) _ (repeat 0 (length (x_buf (s_ctx s2)))) 0); try reflexivity.
        - exists (e_in (s_env s2)), (e_recvs (s_env s2)), (e_times (s_env s2)). destruct (s_env s2); reflexivity.
        - unfold zlen. now rewrite repeat_length.
        - destruct Hr2 as ((R1 & R2 & R3 & R4 & R5) & R6). unfold rx_all, rx_ok, pend, emptied. cbn [s_ctx s_env x_buf x_index set_index set_buf].
          unfold zlen in *. rewrite repeat_length. repeat split; auto; try lia. + constructor. + apply zeros_bytes. }
      rewrite <- (app_nil_l l2). eapply cp_step.
      { apply ca_atom. eapply (a_engine _ _ NewSession (Success, None)); [exact I|reflexivity]. }
      rewrite <- (app_nil_r l2). eapply cp_step.
      { apply ca_atom. apply (a_local _ _ (mkSt (cleaned (s_ctx s2)) (s_env s2))); auto; repeat split. }
      apply cpath_one. apply (ca_accept _ _ (mkSt (cleaned (s_ctx s2)) (s_env s2))); auto. }
    split; [apply calm_app; split; auto; apply calm_app; auto|]. split; [|split; [auto|apply N', N; auto 10]].
    intros _. split; auto. split; [reflexivity|]. exists false. split; auto. rewrite !ins_app, In1, Q1, E, Hl4, app_nil_r. split; [reflexivity|].
    split; auto. exists vs. split; auto. rewrite !outs_app, Os, Ou, Hl3, !app_nil_r. reflexivity.
  - destruct K as [(_ & p & E & Ep & Hp)|[(? & _)|[?|[?| ?]]]]; try discriminate. assert (p = true) by congruence. subst p.
    split.
    { eapply cpath_app; [exact X1|]. rewrite <- (app_nil_r t2). eapply cpath_app; [exact X2|]. apply cpath_one. now apply ca_accept. }
    split; [apply calm_app; auto|]. split; [|split; [right; exact I2|apply N', N; auto 10]].
    intros _. split; auto. split; [reflexivity|]. exists true. split; auto. rewrite !ins_app, In1, Q1, E. split; [reflexivity|].
    split; auto. exists vs. split; auto. rewrite !outs_app, Os, Ou, app_nil_r. reflexivity.
Qed.

(** ** Steps that may hang *)
Definition csteps {A} (f : Mc A) (s : st) (R : A -> st -> list ev -> Prop) : Prop := forall w, free w ->
  f w s <> Undef /\ forall oa w' s' t, f w s = Ret (oa, w') s' t ->
    match oa with Some a => free w' /\ R a s' t | None => g_nest G = false /\ dead t end.
Lemma csteps_steps {A} (f : Mc A) s R : steps f s R -> csteps f s R.
Proof.
  intros H w Hw. destruct (H w Hw) as (H1 & H2). split; auto. intros oa w' s' t E. destruct (H2 _ _ _ _ E) as (F & a & -> & K). auto.
Qed.
Lemma csteps_weaken {A} (f : Mc A) s (R R' : A -> st -> list ev -> Prop) : csteps f s R -> (forall a s' t, R a s' t -> R' a s' t) -> csteps f s R'.
Proof.
  intros H K w Hw. destruct (H w Hw) as (H1 & H2). split; auto. intros oa w' s' t E. specialize (H2 _ _ _ _ E). destruct oa; [|auto]. destruct H2; auto.
Qed.
Lemma csteps_ret {A} (a : A) s (R : A -> st -> list ev -> Prop) : R a s [] -> csteps (cret a) s R.
Proof. intro H. apply csteps_steps, steps_ret, H. Qed.
Lemma csteps_bind {A B} (f : Mc A) (k : A -> Mc B) s (R : B -> st -> list ev -> Prop) R1 :
  csteps f s R1 -> (forall a s1 t1, R1 a s1 t1 -> csteps (k a) s1 (fun b s2 t2 => R b s2 (t1 ++ t2))) -> csteps (cbind f k) s R.
Proof.
  intros H K w Hw. destruct (H w Hw) as (H1 & H2). unfold cbind. split.
  - unfold bind. destruct (f w s) as [[oa w'] s1 t1| |] eqn:E; [|contradiction|discriminate].
    specialize (H2 _ _ _ _ eq_refl). destruct oa as [a|]; [|discriminate]. destruct H2 as (F1 & F3). destruct (K _ _ _ F3 w' F1) as (K1 & _).
    destruct (k a w' s1); [discriminate|contradiction|discriminate].
  - intros ob w2 s2 t E. apply bind_inv in E. destruct E as ((oa, w1) & s1 & t1 & t2 & E1 & E2 & ->).
    specialize (H2 _ _ _ _ E1). destruct oa as [a|].
    + destruct H2 as (F1 & F3). destruct (K _ _ _ F3 w1 F1) as (_ & K2). specialize (K2 _ _ _ _ E2). destruct ob; auto. destruct K2 as (K2 & K3). split; auto. now apply dead_app.
    + apply ret_inv in E2. destruct E2 as (E2 & -> & ->). assert (ob = None) as -> by congruence. now rewrite app_nil_r.
Qed.
Lemma csteps_locked {A} (f : Mc A) (f0 : Mo A) s (R : A -> st -> list ev -> Prop) : good s -> (forall s1, sim G true true f f0 s1) ->
  (forall s1 t1, others s s1 t1 -> good s1 -> safe f0 s1 /\ forall a s2 t2, f0 s1 = Ret a s2 t2 -> R a s2 (t1 ++ t2)) -> csteps (locked G f) s R.
Proof.
  intros Hg Hsim K w Hw. pose proof Hw as (Hh & Hf). pose proof (fine_hd _ Hf) as Hl.
  assert (Q : forall a0 s1 t1, run_ops G (hd [] (w_sched w)) s = Ret a0 s1 t1 -> others s s1 t1 /\ good s1).
  { intros a0 s1 t1 E1. pose proof (run_others G _ _ _ _ _ Hl E1) as Ho. split; auto. eapply good_path; [apply Ho|exact Hg]. }
  pose proof (run_ops_safe G n m HM HV _ s (proj1 Hl) (proj1 Hg)) as Sf. unfold safe in Sf.
  assert (Z : locked G f w s = match run_ops G (hd [] (w_sched w)) s with
    | Ret _ s1 t1 => match f (mkW true (tl (w_sched w))) s1 with
        | Ret (Some a, w') s2 t2 => Ret (Some a, mkW false (w_sched w')) s2 (t1 ++ t2)
        | Ret (None, w') s2 t2 => Ret (None, w') s2 (t1 ++ t2)
        | Undef => Undef | Stuck => Stuck end
    | Undef => Undef | Stuck => Stuck end).
  { unfold locked, acquire, release, cbind, yield, cret. rewrite Hh. unfold bind, ret.
    destruct (run_ops G (hd [] (w_sched w)) s) as [a0 s1 t1| |]; auto. cbn [w_held w_sched andb].
    destruct (f (mkW true (tl (w_sched w))) s1) as [[[a|] w'] s2 t2| |]; auto; rewrite ?app_nil_r; reflexivity. }
  rewrite Z. clear Z.
  destruct (run_ops G (hd [] (w_sched w)) s) as [a0 s1 t1| |] eqn:E1; [|contradiction|split; [discriminate|intros ? ? ? ? E; discriminate E]].
  destruct (Q _ _ _ eq_refl) as (Q1 & Q2). destruct (K _ _ Q1 Q2) as (K1 & K2).
  specialize (Hsim s1 (mkW true (tl (w_sched w))) eq_refl ltac:(discriminate)).
  destruct (f (mkW true (tl (w_sched w))) s1) as [[[a|] w'] s2 t2| |].
  - destruct Hsim as (E2 & ->). split; [discriminate|]. intros oa w2 s3 t E. cbn [w_sched] in E.
    assert (oa = Some a /\ w2 = mkW false (tl (w_sched w)) /\ s3 = s2 /\ t = t1 ++ t2) as (-> & -> & -> & ->) by (repeat split; congruence).
    split; [split; [reflexivity|now apply fine_tl]|]. eauto.
  - destruct Hsim as (_ & Dn & D). split; [discriminate|]. intros oa w2 s3 t E.
    assert (oa = None /\ t = t1 ++ t2) as (-> & ->) by (split; congruence). split; auto. now apply dead_app.
  - exfalso. unfold safe in K1. contradiction.
  - split; [discriminate|intros ? ? ? ? E; discriminate E].
Qed.
(** ** Resuming a session *)
Definition resumed (s s' : st) (t : list ev) : Prop :=
  CPath true s s' t /\ calm_t t /\ ins t = [] /\ x_status (s_ctx s') <> NotConnected /\
  (forall id, held id (incoming s) -> held id (incoming s')) /\ same_rx s s' /\ items t = [].
Lemma resumed_refl s : x_status (s_ctx s) <> NotConnected -> resumed s s [].
Proof. intro H. split; [constructor|]. split; [apply calm_nil|]. split; auto. split; auto. split; auto. repeat split; auto. Qed.
Lemma resumed_trans s1 s2 s3 t1 t2 : resumed s1 s2 t1 -> resumed s2 s3 t2 -> resumed s1 s3 (t1 ++ t2).
Proof.
  intros (A1 & A2 & A3 & A4 & A5 & A6 & A7) (B1 & B2 & B3 & B4 & B5 & B6 & B7). split; [eapply cpath_app; eauto|]. split; [apply calm_app; auto|].
  rewrite ins_app, items_app, A3, B3, A7, B7. split; auto. split; auto. split; auto. split; [|reflexivity]. unfold same_rx in *. intuition congruence.
Qed.
Lemma resumed_kept s s' t : x_status (s_ctx s) <> NotConnected -> kept None s s' t -> resumed s s' t.
Proof.
  intros Hn (P & C & K). split; [now apply cpath_path|]. split; auto. split; [apply path_same_rx in P; destruct P as (_ & P); now apply no_rx_items in P|].
  pose proof (path_same_rx _ _ _ P) as (X1 & X2). apply no_rx_items in X2. split; [|split; [|split; [exact X1|apply X2]]].
  - apply (cpath_path G false), cpath_clive in P. unfold clive in P. destruct (x_status (s_ctx s)); [contradiction| |]; destruct P as (P1 & P2); [congruence|tauto].
  - intros id Hi. destruct (K id Hi) as [Q|(Q & _)]; [auto|discriminate].
Qed.
Lemma resumed_others s s' t : x_status (s_ctx s) <> NotConnected -> others s s' t -> resumed s s' t.
Proof. intros Hn H. apply resumed_kept; auto. now apply kept_others. Qed.
Lemma resumed_good s s' t : resumed s s' t -> good s -> good s'.
Proof. intros (P & _). eapply cpath_good; eauto. Qed.
Lemma look_steps {A} (k : context -> Mc A) s (R : A -> st -> list ev -> Prop) : good s -> x_status (s_ctx s) <> NotConnected ->
  (forall s1 t1, resumed s s1 t1 -> good s1 -> steps (k (s_ctx s1)) s1 (fun a s2 t2 => R a s2 (t1 ++ t2))) -> steps (let^ c := visit G getc in k c) s R.
Proof.
  intros Hg Hn K. eapply (steps_bind _ _ _ _ (fun c s1 t1 => resumed s s1 t1 /\ c = s_ctx s1)).
  - apply (steps_visit G n m HM HV); auto. intros s1 t1 Ho Hg1. split; [safe1|]. intros a s2 t2 E. apply getc_inv in E. destruct E as (-> & -> & ->).
    rewrite app_nil_r. split; auto. now apply resumed_others.
  - intros a s1 t1 (H & ->). apply K; auto. eapply resumed_good; eauto.
Qed.
Lemma pubrel_steps fuel : forall pid cur s, good s -> x_status (s_ctx s) <> NotConnected ->
  steps (c_pubrel_loop G fuel pid cur) s (fun _ s' t => resumed s s' t).
Proof.
  induction fuel as [|fuel IH]; intros pid cur s Hg Hn; cbn [c_pubrel_loop].
  { apply steps_atomic; [discriminate|]. intros a s' t E. discriminate E. }
  destruct (pid =? 0); [apply steps_ret; now apply resumed_refl|].
  eapply (steps_bind _ _ _ _ (fun _ s1 t1 => resumed s s1 t1)).
  - eapply steps_weaken; [apply (acks_steps G n m HM HV); auto|]. cbv beta. intros a s1 t1 (K & _). now apply resumed_kept.
  - intros st s1 t1 H1. pose proof (resumed_good _ _ _ H1 Hg) as Hg1. pose proof H1 as (_ & _ & _ & Hn1 & _).
    destruct (status_beq st Success); cbn [negb]; [|apply steps_ret; now rewrite app_nil_r].
    apply look_steps; auto. intros s2 t2 H2 Hg2. destruct (pubrelToResend _ _) as (p2, c2). pose proof H2 as (_ & _ & _ & Hn2 & _).
    eapply steps_weaken; [now apply IH|]. cbv beta. intros a s3 t3 H3. eapply resumed_trans; [exact H1|]. eapply resumed_trans; eauto.
Qed.
Lemma publish_steps fuel : forall cur s, good s -> x_status (s_ctx s) <> NotConnected ->
  steps (c_publish_loop G fuel cur) s (fun _ s' t => resumed s s' t).
Proof.
  induction fuel as [|fuel IH]; intros cur s Hg Hn; cbn [c_publish_loop].
  { apply steps_atomic; [discriminate|]. intros a s' t E. discriminate E. }
  apply look_steps; auto. intros s1 t1 H1 Hg1. pose proof H1 as (_ & _ & _ & Hn1 & _). destruct (publishToResend _ _) as (pid, c1).
  destruct (pid =? 0); [apply steps_ret; now rewrite app_nil_r|].
  eapply (steps_bind _ _ _ _ (fun _ s2 t2 => resumed s1 s2 t2)).
  - apply (steps_visit G n m HM HV); auto. intros s2 t2 Ho Hg2. split; [unfold safe, retrieve_publish; discriminate|].
    intros r s3 t3 E. eapply resumed_trans; [apply resumed_others; eauto|]. pose proof (resumed_others _ _ _ Hn1 Ho) as (_ & _ & _ & Hn2 & _).
    unfold retrieve_publish in E. assert (s3 = mkSt (s_ctx s2) (env_retrs (s_env s2) (tl (e_retrs (s_env s2)))) /\ t3 = [ERetrieve pid r]) as (-> & ->) by (split; congruence).
    apply resumed_kept; auto. apply kept_same; [apply path_one; apply a_local; repeat split|apply calm_cons; [reflexivity|apply calm_nil]|reflexivity].
  - intros [bs|] s2 t2 H2; [|apply steps_ret; rewrite app_nil_r; eapply resumed_trans; eauto].
    pose proof (resumed_good _ _ _ H2 Hg1) as Hg2. pose proof H2 as (_ & _ & _ & Hn2 & _).
    eapply (steps_bind _ _ _ _ (fun _ s3 t3 => resumed s2 s3 t3)).
    + apply (steps_locked G n m HM HV); auto. intros s3 t3 Ho Hg3. split; [apply sendBuffer_safe|].
      intros r s4 t4 E. eapply resumed_trans; [apply resumed_others; eauto|]. pose proof (resumed_others _ _ _ Hn2 Ho) as (_ & _ & _ & Hn3 & _).
      apply sendBuffer_spec, sent_ok_sentb in E.
      split; [apply cpath_one; eapply ca_resend; eauto|]. split; [eapply sentb_calm; eauto|].
      split; [apply sentb_same_rx in E; destruct E as (_ & E); now apply no_rx_items in E|].
      split; [apply sentb_hush in E; destruct E as (_ & ->); destruct (serrs t4); auto; destruct (x_status (s_ctx s3)); congruence|].
      split; [intros id; unfold incoming; apply sentb_recs in E; now rewrite E|]. apply sentb_same_rx in E. destruct E as (X1 & X2). apply no_rx_items in X2. split; [exact X1|apply X2].
    + intros r s3 t3 H3. pose proof (resumed_good _ _ _ H3 Hg2) as Hg3. pose proof H3 as (_ & _ & _ & Hn3 & _).
      destruct (r =? zlen bs); cbn [negb].
      * eapply steps_weaken; [now apply IH|]. cbv beta. intros a s4 t4 H4. repeat (eapply resumed_trans; [eassumption|]). exact H4.
      * apply steps_ret. rewrite app_nil_r. repeat (eapply resumed_trans; [eassumption|]). exact H3.
Qed.
Lemma resume_steps s : good s -> x_status (s_ctx s) <> NotConnected -> steps (c_handleUncleanSessionResumption G) s (fun _ s' t => resumed s s' t).
Proof.
  intros Hg Hn. unfold c_handleUncleanSessionResumption. apply look_steps; auto. intros s1 t1 H1 Hg1. pose proof H1 as (_ & _ & _ & Hn1 & _).
  cbv zeta. destruct (pubrelToResend _ _) as (pid, c1).
  eapply (steps_bind _ _ _ _ (fun _ s2 t2 => resumed s1 s2 t2)); [now apply pubrel_steps|].
  intros st s2 t2 H2. pose proof (resumed_good _ _ _ H2 Hg1) as Hg2. pose proof H2 as (_ & _ & _ & Hn2 & _).
  destruct (_ && _).
  - eapply steps_weaken; [now apply publish_steps|]. cbv beta. intros a s3 t3 H3. repeat (eapply resumed_trans; [eassumption|]). exact H3.
  - apply steps_ret. rewrite app_nil_r. eapply resumed_trans; eauto.
Qed.

(** ** MQTT_Connect *)
Definition cpost (ci : coninfo) (will : option pubinfo) (s : st) (r : status) (sp : option bool) (s' : CoreModel.st) (t : list ev) : Prop :=
  CPath true s s' t /\ calm_t t /\
  (ins t <> [32; 2; 0; 0] -> forall id, held id (incoming s) -> held id (incoming s')) /\
  (r = Success -> exists (p : bool) rl total vs a b, sp = Some p /\ ins t = [32; 2; if p then 1 else 0; 0] /\ (c_clean ci = true -> p = false) /\
     getConnectPacketSize ci will = (Success, Some (rl, total)) /\ connect_vectors ci will rl = Ok vs /\ outs t = a ++ concat vs ++ b) /\
  (r <> Success -> r <> StConnected -> r <> StDisconnectPending -> x_status (s_ctx s') <> Connected) /\
  (x_status (s_ctx s) <> NotConnected -> CPath false s s' t).
Lemma others_ins s s' t : others s s' t -> ins t = [].
Proof. intros (P & _). apply path_same_rx in P. destruct P as (_ & P). now apply no_rx_items in P. Qed.
Lemma connect_steps ci will tmo s : con_sound ci will -> rx_all G s -> good s ->
  csteps (c_connect G ci will tmo) s (fun a s' t => cpost ci will s (fst a) (snd a) s' t).
Proof.
  intros Hs Hr Hg. unfold c_connect. destruct (getConnectPacketSize ci will) as (st0, size) eqn:Ez.
  set (R1 := fun (a : status * option bool) s1 t1 => exists s0 ta tb, t1 = ta ++ tb /\ others s s0 ta /\
     ((exists rl total, getConnectPacketSize ci will = (Success, Some (rl, total)) /\ greeted ci will rl s0 (fst a) (snd a) s1 tb) \/
      fst a <> Success /\ s1 = s0 /\ tb = [])).
  assert (HF : forall r, r <> Success -> csteps (cret (r, @None bool)) s R1).
  { intros r Hr0. apply csteps_ret. exists s, [], []. split; auto. split; [apply others_refl|]. right. auto. }
  apply (csteps_bind _ _ _ _ R1).
  { destruct st0; try (apply HF; discriminate). destruct size as [(rl, total)|].
    - apply (csteps_locked _ (region G ci will rl tmo)); auto; [intro; apply sim_region|].
      intros s1 t1 Ho Hg1. pose proof (proj1 Ho) as X. apply path_same_rx in X. destruct X as (X & _).
      pose proof (same_rx_all G _ _ X Hr) as Hr1. split; [eapply region_safe; eauto; apply Hg1|].
      intros (r, sp) s2 t2 E. exists s1, t1, t2. split; auto. split; auto. left. exists rl, total. split; auto. now apply region_greeted with (tmo := tmo).
    - exfalso. unfold getConnectPacketSize in Ez. repeat match type of Ez with (if ?b then _ else _) = _ => destruct b end; discriminate. }
  intros (r, sp) s1 t1 (s0 & ta & tb & -> & Ho & H1). cbn [fst snd] in H1. clear R1 HF.
  assert (H : CPath true s s1 (ta ++ tb) /\ calm_t (ta ++ tb) /\
    (r = Success -> x_status (s_ctx s1) = Connected /\ exists (p : bool) rl total vs a b, sp = Some p /\ ins (ta ++ tb) = [32; 2; if p then 1 else 0; 0] /\ (c_clean ci = true -> p = false) /\
     getConnectPacketSize ci will = (Success, Some (rl, total)) /\ connect_vectors ci will rl = Ok vs /\ outs (ta ++ tb) = a ++ concat vs ++ b) /\
    (r = Success /\ sp = Some false \/ incoming s1 = incoming s) /\
    (x_status (s_ctx s) <> NotConnected -> CPath false s s1 (ta ++ tb) /\ r <> Success)).
  { pose proof (others_ins _ _ _ Ho) as Ei. pose proof (kept_others _ _ _ Ho) as (P & C & _).
    assert (I : incoming s0 = incoming s) by (unfold incoming; destruct Ho as (_ & -> & _); reflexivity).
    assert (N0 : x_status (s_ctx s) <> NotConnected -> x_status (s_ctx s0) <> NotConnected).
    { intro Hn. pose proof (resumed_others _ _ _ Hn Ho) as (_ & _ & _ & N & _). exact N. }
    destruct H1 as [(rl & total & E & A1 & A2 & A3 & A4 & _ & _ & A5)|(A1 & -> & ->)].
    - split; [eapply cpath_app; [apply cpath_path; exact P|exact A1]|]. split; [apply calm_app; auto|]. split; [|split; [rewrite <- I; exact A4|]].
      2: { intro Hn. specialize (N0 Hn). destruct (A5 N0) as (-> & ->). rewrite app_nil_r. split; [now apply cpath_path|]. intro Er. destruct (A3 Er) as (Z & _). contradiction. }
      intro Er. destruct (A3 Er) as (_ & B1 & p & B2 & B3 & B4 & vs & B5 & B6). split; auto. exists p, rl, total, vs, (outs ta), [].
      rewrite ins_app, outs_app, Ei, app_nil_r, B6. auto 10.
    - rewrite app_nil_r. split; [now apply cpath_path|]. split; auto. split; [contradiction|]. split; [auto|]. split; [now apply cpath_path|auto]. }
  clear H1 Ho. set (t1 := ta ++ tb) in *. clearbody t1. clear ta tb. destruct H as (P1 & C1 & S1 & I1 & L1).
  pose proof (cpath_good _ _ _ _ _ _ _ P1 Hg) as Hg1.
  set (R2 := fun (r2 : status) s2 t2 => CPath true s1 s2 t2 /\ calm_t t2 /\ ins t2 = [] /\ (r = Success /\ sp = Some false -> r2 = Success /\ s2 = s1) /\
     (forall id, held id (incoming s1) -> held id (incoming s2)) /\ (r2 = Success -> r = Success) /\ (r <> Success -> s2 = s1 /\ t2 = [])).
  apply (csteps_bind _ _ _ _ R2).
  { destruct (status_beq r Success && _) eqn:Eb.
    - apply andb_true_iff in Eb. destruct Eb as (Er & Esp). apply status_beq_eq in Er. destruct (S1 Er) as (Es & _).
      apply csteps_steps. eapply steps_weaken; [apply resume_steps; auto; congruence|]. cbv beta. intros r2 s2 t2 (A1 & A2 & A3 & A4 & A5 & _). split; auto. split; auto. split; auto.
      split; [intros (_ & E); subst sp; discriminate|]. split; auto. split; [auto|contradiction].
    - apply csteps_ret. split; [constructor|]. split; [apply calm_nil|]. split; auto. split; [intros (-> & _); auto|]. auto. }
  intros r2 s2 t2 (P2 & C2 & I2 & N2 & K2 & S2 & L2). pose proof (cpath_good _ _ _ _ _ _ _ P2 Hg1) as Hg2.
  set (R3 := fun (_ : unit) s3 t3 => CPath false s2 s3 t3 /\ calm_t t3 /\ ins t3 = [] /\ incoming s3 = incoming s2 /\
     (r2 <> Success -> r2 <> StConnected -> r2 <> StDisconnectPending -> x_status (s_ctx s3) <> Connected)).
  apply (csteps_bind _ _ _ _ R3).
  { destruct (status_beq r2 Success || _ || _) eqn:Eb.
    - apply csteps_ret. split; [constructor|]. split; [apply calm_nil|]. split; auto. split; auto. intros.
      apply orb_true_iff in Eb. destruct Eb as [Eb|Eb]; [apply orb_true_iff in Eb; destruct Eb as [Eb|Eb]|]; apply status_beq_eq in Eb; contradiction.
    - apply csteps_steps. eapply steps_weaken; [now apply (broke_steps G n m HM HV)|]. cbv beta. intros [] s3 t3 ((A1 & _ & _ & A2 & _ & _ & A3 & A4) & A5).
      split; [exact A1|]. auto. }
  intros [] s3 t3 (P3 & C3 & I3 & K3 & D3). apply csteps_ret. cbn [fst snd]. rewrite app_nil_r. split; [eapply cpath_app; [exact P1|]; eapply cpath_app; [exact P2|now apply cpath_true]|].
  split; [apply calm_app; split; auto; apply calm_app; auto|]. rewrite !ins_app, I2, I3, !app_nil_r. split.
  { intros Hi id. rewrite K3. intro Hh. apply K2. destruct I1 as [(Er & Esp)|E]; [|now rewrite E].
    exfalso. apply Hi. destruct (S1 Er) as (_ & p & rl & total & vs & a & b & E1 & -> & _). assert (p = false) by congruence. now subst p. }
  split; [|split; [exact D3|intro Hn; destruct (L1 Hn) as (L3 & L4); destruct (L2 L4) as (-> & ->); eapply cpath_app; eauto]]. intro E. destruct (S1 (S2 E)) as (_ & p & rl & total & vs & a & b & E1 & E2 & E3 & E4 & E5 & E6). exists p, rl, total, vs, a, (b ++ outs t2 ++ outs t3).
  rewrite !outs_app, E6, <- !app_assoc. auto 10.
Qed.
End CP6.
