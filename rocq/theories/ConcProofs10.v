(** The client used from several threads, when MQTT_Disconnect is called by another
    thread, but not during a pass of the loop. *)
From Verif Require Import Base StateModel StateSpec StateHarness StateProofs StateProofs2 SerModel WireSpec SerHarness SerProofs SerProofs2 SerProofs3 SerProofs4 SerProofs5
  CoreModel CoreHarness CoreSpec CoreProofs CoreProofs2 CoreProofs3 CoreProofs4 CoreProofs5 CoreProofs6 CoreProofs7 CoreProofs8 CoreProofs9 CoreProofs10 CoreProofs11 CoreProofs12 CoreProofs13 CoreProofs14 CoreProofs15 CoreProofs16 CoreProofs17 CoreProofs18 CoreProofs19 CoreProofs20 CoreProofs21 CoreProofs22 CoreProofs23 ConcModel ConcHarness ConcProofs ConcProofs2 ConcProofs3 ConcProofs4 ConcProofs5 ConcProofs6 ConcProofs7 ConcProofs8.

Section Apart.
Variable G : cfg.
Variables n m : nat.
Hypothesis HM : 4294967296 <= g_M G.
Hypothesis HV : 3 <= g_maxvec G.
Definition Inv (s : st) : Prop := rx_all G s /\ good n m s.
Definition sounds (w : world) : Prop := w_held w = false /\ Forall (Forall op_sound) (w_sched w).
Definition keepsafe {A} (f : Mc A) (s : st) : Prop := forall w, sounds w ->
  f w s <> Undef /\ forall oa w' s' t, f w s = Ret (oa, w') s' t -> match oa with Some a => sounds w' /\ Inv s' | None => True end.
Lemma ks_ret {A} (a : A) s : Inv s -> keepsafe (cret a) s.
Proof.
  intros Hi w Hw. unfold cret. split; [discriminate|]. intros oa w' s' t E. apply ret_inv in E. destruct E as (E & -> & ->). injection E as -> ->. auto.
Qed.
Lemma ks_bind {A B} (f : Mc A) (k : A -> Mc B) s : keepsafe f s -> (forall a s1, Inv s1 -> keepsafe (k a) s1) -> keepsafe (cbind f k) s.
Proof.
  intros H K w Hw. destruct (H w Hw) as (H1 & H2). unfold cbind. split.
  - unfold bind. destruct (f w s) as [[oa w1] s1 t1| |] eqn:E; try discriminate; [|contradiction]. specialize (H2 _ _ _ _ eq_refl).
    destruct oa as [a|]; [|discriminate]. destruct H2 as (F1 & F2). destruct (K a s1 F2 w1 F1) as (K1 & _). destruct (k a w1 s1); try discriminate. contradiction.
  - intros ob w2 s2 t E. apply bind_inv in E. destruct E as ((oa, w1) & s1 & t1 & t2 & E1 & E2 & ->). specialize (H2 _ _ _ _ E1). destruct oa as [a|].
    + destruct H2 as (F1 & F2). exact (proj2 (K a s1 F2 w1 F1) _ _ _ _ E2).
    + apply ret_inv in E2. destruct E2 as (E2 & _). injection E2 as -> _. exact I.
Qed.
Lemma ks_atomic {A} (f : Mo A) s : safe f s -> (forall a s' t, f s = Ret a s' t -> Inv s') -> keepsafe (atomic f) s.
Proof.
  intros S K w Hw. unfold atomic. split.
  - unfold bind. destruct (f s) eqn:E; try discriminate. now contradiction S.
  - intros oa w' s' t E. apply bind_inv in E. destruct E as (a & s1 & t1 & t2 & E1 & E2 & ->). apply ret_inv in E2. destruct E2 as (E2 & -> & _). injection E2 as -> ->. split; eauto.
Qed.
Lemma inv_cpath s s' t : CPath G true s s' t -> Inv s -> Inv s'.
Proof. intros P (H1 & H2). split; [eapply cpath_rx|eapply cpath_good]; eauto. Qed.
Lemma ks_ops l s a s' t : Inv s -> run_ops G l s = Ret a s' t -> Inv s'.
Proof. intros H E. eapply inv_cpath; [|exact H]. apply (ConcProofs7.path_true G). eapply (run_ops_path G true); eauto. Qed.
Lemma sounds_hd w : sounds w -> Forall op_sound (hd [] (w_sched w)).
Proof. intros (_ & H). destruct (w_sched w); [constructor|now inversion H]. Qed.
Lemma sounds_tl w b : sounds w -> Forall (Forall op_sound) (w_sched (mkW b (tl (w_sched w)))).
Proof. intros (_ & H). cbn. destruct (w_sched w); auto. now inversion H. Qed.
Lemma ks_yield s : Inv s -> keepsafe (yield G) s.
Proof.
  intros Hi w Hw. pose proof (sounds_hd _ Hw) as Hd. pose proof (sounds_tl _ false Hw) as Ht. unfold yield. rewrite (proj1 Hw).
  pose proof (run_ops_safe G n m HM HV _ s Hd (proj1 (proj2 Hi))) as S. split.
  - unfold bind. destruct (run_ops G _ s) eqn:E; try discriminate. now contradiction S.
  - intros oa w' s' t E. apply bind_inv in E. destruct E as (a & s1 & t1 & t2 & E1 & E2 & ->). apply ret_inv in E2. destruct E2 as (E2 & -> & ->). injection E2 as -> ->.
    split; [split; [reflexivity|exact Ht]|]. eapply ks_ops; eauto.
Qed.
Lemma ks_visit {A} (f : Mo A) s : Inv s -> (forall s1, Inv s1 -> safe f s1 /\ forall a s' t, f s1 = Ret a s' t -> Inv s') -> keepsafe (visit G f) s.
Proof. intros Hi K. unfold visit. apply ks_bind; [now apply ks_yield|]. intros _ s1 H1. destruct (K s1 H1). now apply ks_atomic. Qed.
Definition aloof {A} (f : Mc A) (s : st) : Prop := forall w, w_held w = true -> Forall (Forall op_sound) (w_sched w) ->
  f w s <> Undef /\ forall oa w' s' t, f w s = Ret (oa, w') s' t -> match oa with Some a => Forall (Forall op_sound) (w_sched w') /\ Inv s' | None => True end.
Lemma ks_locked {A} (f : Mc A) s : Inv s -> (forall s1, Inv s1 -> aloof f s1) -> keepsafe (locked G f) s.
Proof.
  intros Hi K w Hw. rewrite (locked_eq _ _ _ _ (proj1 Hw)). pose proof (sounds_hd _ Hw) as Hd. pose proof (sounds_tl _ true Hw) as Ht.
  pose proof (run_ops_safe G n m HM HV _ s Hd (proj1 (proj2 Hi))) as S.
  destruct (run_ops G (hd [] (w_sched w)) s) as [a0 s1 t1| |] eqn:E; [|now contradiction S|split; [discriminate|intros; discriminate]].
  pose proof (ks_ops _ _ _ _ _ Hi E) as H1. destruct (K s1 H1 (mkW true (tl (w_sched w))) eq_refl Ht) as (K1 & K2).
  destruct (f (mkW true (tl (w_sched w))) s1) as [[[a|] w1] s2 t2| |] eqn:E2; try contradiction; (split; [discriminate|]); intros oa w' s' t E3; try discriminate.
  - specialize (K2 _ _ _ _ eq_refl). cbv beta iota in K2. destruct K2 as (K2 & K3). injection E3 as <- <- <- <-. split; [split; [reflexivity|exact K2]|exact K3].
  - injection E3 as <- <- <- <-. exact I.
Qed.
Lemma ks_section {A} (f : Mo A) s : Inv s -> (forall s1, Inv s1 -> safe f s1 /\ forall a s' t, f s1 = Ret a s' t -> Inv s') -> keepsafe (locked G (atomic f)) s.
Proof.
  intros Hi K. apply ks_locked; auto. intros s1 H1 w _ Hs. destruct (K s1 H1) as (S & K2). unfold atomic. split.
  - unfold bind. destruct (f s1) eqn:E; try discriminate. now contradiction S.
  - intros oa w' s' t E. apply bind_inv in E. destruct E as (a & s2 & t1 & t2 & E1 & E2 & ->). apply ret_inv in E2. destruct E2 as (E2 & -> & _). injection E2 as -> ->. split; eauto.
Qed.
Lemma ks_getc s : Inv s -> keepsafe (visit G getc) s.
Proof. intro Hi. apply ks_visit; auto. intros s1 H1. split; [discriminate|]. intros a s' t E. apply getc_inv in E. destruct E as (_ & -> & _). exact H1. Qed.
Lemma ks_op o s : op_sound o -> Inv s -> keepsafe (c_op G o) s.
Proof.
  intros Ho Hi. apply ks_section; auto. intros s1 H1. split; [apply (run_op_safe G n m HM HV); [exact Ho|apply H1]|].
  intros a s' t E. eapply inv_cpath; [|exact H1]. apply (ConcProofs7.path_true G). eapply (run_op_path G true); eauto.
Qed.
Lemma inv_sentb bs s ok s' t : sentb bs s ok s' t -> Inv s -> Inv s'.
Proof. intros H (H1 & H2). split; [eapply same_rx_all; [eapply sentb_same_rx; exact H|exact H1]|eapply good_sentb; eauto]. Qed.
Lemma inv_local s s' t : Path false s s' t -> Inv s -> Inv s'.
Proof. intro P. eapply inv_cpath. eapply cpath_path; exact P. Qed.
Lemma ks_acks id ps s : Inv s -> keepsafe (c_sendPublishAcks G id ps) s.
Proof.
  intro Hi. unfold c_sendPublishAcks. destruct (ackToSend ps) as [(ty, ak)|] eqn:Ek; [|now apply ks_ret].
  rewrite (serializeAck_bytes _ _ _ _ Ek). apply ks_bind.
  { apply ks_atomic; [apply safe_lift; discriminate|]. intros a s' t H. apply lift_inv in H. destruct H as (_ & -> & _). exact Hi. }
  intros (st, buf) s1 H1. apply ks_bind.
  { destruct (status_beq st Success); [|now apply ks_ret]. apply ks_section; auto. intros s2 H2. split; [apply ack_send_safe|]. intros a s3 t H.
    unfold ack_send in H. apply bind_inv in H. destruct H as (c & s4 & t4 & t5 & E1 & H & _). apply getc_inv in E1. destruct E1 as (-> & -> & _).
    destruct (status_beq _ _); [|apply ret_inv in H; destruct H as (_ & -> & _); exact H2].
    apply bind_inv in H. destruct H as (r & s5 & t6 & t7 & E1 & H & _). apply ret_inv in H. destruct H as (_ & -> & _).
    apply sendBuffer_spec in E1. apply sent_ok_sentb in E1. eapply inv_sentb; eauto. }
  intros st2 s2 H2. destruct (status_beq st2 Success); [|now apply ks_ret]. apply ks_bind.
  { apply ks_visit; auto. intros s3 H3. split; [discriminate|]. intros a s4 t E. apply modc_inv in E. destruct E as (-> & _).
    eapply (inv_local _ _ []); [|exact H3]. apply path_one, a_local; repeat split. }
  intros _ s3 H3. apply ks_section; auto. intros s4 H4.
  assert (S : safe (on_recs (fun r => updateStateAckApi r id ak OpSend)) s4) by (apply safe_on_recs; eapply acked_safe; apply H4).
  unfold ack_update. split; [apply safe_bind; [exact S|intros (?, ?) ? ? ?; discriminate]|].
  intros a s5 t E. apply bind_inv in E. destruct E as ((x, y) & s6 & t6 & t7 & E & E2 & _). apply ret_inv in E2. destruct E2 as (_ & -> & _).
  apply (acked_kept n m) in E; [|apply H4]. destruct E as (P & _). eapply inv_local; eauto.
Qed.
Lemma ks_pubrel fuel : forall id cur s, Inv s -> keepsafe (c_pubrel_loop G fuel id cur) s.
Proof.
  induction fuel as [|fuel IH]; intros id cur s Hi; cbn [c_pubrel_loop].
  { apply ks_atomic; discriminate. }
  destruct (id =? 0); [now apply ks_ret|]. apply ks_bind; [now apply ks_acks|]. intros st s1 H1. destruct (negb _); [now apply ks_ret|].
  apply ks_bind; [now apply ks_getc|]. intros c s2 H2. destruct (pubrelToResend _ _). auto.
Qed.
Lemma ks_publish fuel : forall cur s, Inv s -> keepsafe (c_publish_loop G fuel cur) s.
Proof.
  induction fuel as [|fuel IH]; intros cur s Hi; cbn [c_publish_loop].
  { apply ks_atomic; discriminate. }
  apply ks_bind; [now apply ks_getc|]. intros c s1 H1. destruct (publishToResend _ _) as (id, cur2). destruct (id =? 0); [now apply ks_ret|].
  apply ks_bind.
  { apply ks_visit; auto. intros s2 H2. split; [discriminate|]. intros a s3 t E. unfold retrieve_publish in E. cbv zeta in E. injection E as _ <- _.
    eapply (inv_local _ _ [ERetrieve id None]); [|exact H2]. apply path_one, a_local; repeat split. }
  intros [bs|] s2 H2; [|now apply ks_ret]. apply ks_bind.
  { apply ks_section; auto. intros s3 H3. split; [apply sendBuffer_safe|]. intros a s4 t E. apply sendBuffer_spec in E. apply sent_ok_sentb in E. eapply inv_sentb; eauto. }
  intros k s3 H3. destruct (negb _); [now apply ks_ret|auto].
Qed.
Lemma ks_connect ci will tmo s : con_sound ci will -> Inv s -> keepsafe (c_connect G ci will tmo) s.
Proof.
  intros Hs Hi. unfold c_connect. destruct (getConnectPacketSize ci will) as (st0, size) eqn:Ez. apply ks_bind.
  { destruct st0; try now apply ks_ret. destruct size as [(rl, total)|]; [|now apply ks_ret]. apply ks_locked; auto.
    intros s1 (Hr & Hg) w Hh Hw. pose proof (sim_region G ci will rl tmo s1 w Hh ltac:(discriminate)) as S.
    pose proof (region_safe G n m ci will tmo rl total s1 Hs Hr (proj1 Hg) Ez) as Sf.
    destruct (c_connect_region G ci will rl tmo w s1) as [[[(r, sp)|] w1] s2 t2| |]; [| |now contradiction Sf|].
    - destruct S as (S & ->). split; [discriminate|]. intros oa w' s' t E. injection E as <- <- <- <-. split; [exact Hw|].
      apply (region_greeted G n m) in S; auto. eapply inv_cpath; [apply S|]. split; auto.
    - split; [discriminate|]. intros oa w' s' t E. injection E as <- <- <- <-. exact I.
    - split; [discriminate|]. intros; discriminate. }
  intros (r, sp) s1 H1. apply ks_bind.
  { destruct (_ && _); [|now apply ks_ret]. unfold c_handleUncleanSessionResumption. apply ks_bind; [now apply ks_getc|]. intros c s2 H2. cbv zeta.
    destruct (pubrelToResend _ _). apply ks_bind; [now apply ks_pubrel|]. intros st s3 H3. destruct (_ && _); [now apply ks_publish|now apply ks_ret]. }
  intros r' s2 H2. apply ks_bind; [|intros _ s3 H3; now apply ks_ret].
  destruct (_ || _); [now apply ks_ret|]. unfold c_broke. apply (ks_section (modc transport_broke)); auto. intros s3 H3. split; [discriminate|].
  intros a s4 t E. apply modc_inv in E. destruct E as (-> & _). eapply inv_cpath; [|exact H3]. apply cpath_one, ca_broke.
Qed.
Lemma ks_call c sched s : kept_apart (c, sched) -> Inv s -> c_run_call G c (mkW false sched) s <> Undef /\
  forall a w' s' t, c_run_call G c (mkW false sched) s = Ret (Some a, w') s' t -> Inv s'.
Proof.
  intros (H1 & H2 & H3) Hi. cbn [fst snd] in *. destruct (is_loop c) eqn:El.
  - specialize (H3 eq_refl). assert (F : free (mkW false sched)).
    { split; [reflexivity|]. unfold fine. cbn [w_sched]. clear - H2 H3. induction sched as [|l sched IH]; [constructor|]. cbn [existsb] in H3. apply orb_false_iff in H3. destruct H3 as (H3 & H4).
      inversion H2; subst. constructor; [split; auto|auto]. }
    destruct (call_csteps G n m HM HV c s H1 (proj1 Hi) (proj2 Hi) _ F) as (K1 & K2). split; auto. intros a w' s' t E. specialize (K2 _ _ _ _ E). cbv beta iota in K2.
    destruct K2 as (_ & K2 & _). eapply inv_cpath; eauto.
  - assert (W : sounds (mkW false sched)) by (split; auto).
    assert (K : keepsafe (c_run_call G c) s).
    { destruct c; try discriminate; cbn [c_run_call call_sound] in *; [now apply ks_op|]. apply ks_bind; [now apply ks_connect|]. intros (r, sp) s1 Hs. now apply ks_ret. }
    destruct (K _ W) as (K1 & K2). split; auto. intros a w' s' t E. specialize (K2 _ _ _ _ E). cbv beta iota in K2. apply K2.
Qed.
Lemma ks_each l : forall s, Forall kept_apart l -> Inv s -> c_run_each G l s <> Undef.
Proof.
  induction l as [|(c, sched) l IH]; intros s Hl Hi; cbn [c_run_each]; [discriminate|]. inversion Hl as [|x y H1 H2]; subst.
  destruct (ks_call c sched s H1 Hi) as (K1 & K2). unfold bind. destruct (c_run_call G c (mkW false sched) s) as [[[a|] w] s1 t1| |]; try discriminate; [|contradiction].
  pose proof (IH s1 H2 (K2 _ _ _ _ eq_refl)) as K. destruct (c_run_each G l s1); try discriminate. contradiction.
Qed.
End Apart.

Lemma apart_safe G n m l s : opened G n m s -> 3 <= g_maxvec G -> cbs_sound (s_env s) -> Forall kept_apart l -> c_run_each G l s <> Undef.
Proof.
  intros Ho HV Hc Hl. destruct (legal_inv G n m [] (mkW false []) s) as (HM & _ & Hr & Hg & _).
  { split; auto. split; auto. split; auto. split; [constructor|]. split; [reflexivity|constructor]. }
  apply (ks_each G n m HM HV); auto. split; auto.
Qed.
