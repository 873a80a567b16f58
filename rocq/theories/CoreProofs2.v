(** What each sending API function does, from its result alone. *)
From Verif Require Import Base StateModel SerModel CoreModel CoreHarness CoreProofs.

Lemma status_beq_eq a b : status_beq a b = true <-> a = b.
Proof. destruct a, b; cbn; split; intro; congruence. Qed.
Lemma status_beq_refl a : status_beq a a = true.
Proof. now apply status_beq_eq. Qed.
Lemma status_beq_neq a b : status_beq a b = false <-> a <> b.
Proof. rewrite <- status_beq_eq. destruct (status_beq a b); split; congruence. Qed.
(** evaluate the comparisons of constants *)
Ltac sbeq H := repeat (match type of H with
  | context [status_beq ?a ?b] => let v := eval cbv in (status_beq a b) in
      lazymatch v with true => change (status_beq a b) with true in H | false => change (status_beq a b) with false in H end
  end; cbn [andb orb negb] in H; cbv iota in H).

Ltac dpairs a := try (is_var a; let T := type of a in
  let T := eval cbv beta delta [wbuf] in T in
  lazymatch T with
  | (_ * _)%type => let x := fresh "p" in let y := fresh "q" in destruct a as [x y]; dpairs x; dpairs y
  | unit => destruct a
  end).
(** Decompose a hypothesis [m s = Ret a s' t] as far as possible without case
    distinctions. *)
Ltac mgo H :=
  sbeq H; cbv beta iota zeta in H;
  lazymatch type of H with
  | bind _ _ _ = Ret _ _ _ =>
      let a := fresh "a" in let s1 := fresh "s" in let t1 := fresh "t" in let t2 := fresh "t" in
      let H1 := fresh "H" in let E := fresh "Et" in
      apply bind_inv in H; destruct H as (a & s1 & t1 & t2 & H1 & H & E);
      first [subst | idtac];
      mgo H1; dpairs a; cbv beta iota zeta in H; cbn [fst snd app] in H; mgo H
  | ret _ _ = Ret _ _ _ => apply ret_inv in H;
      let E1 := fresh "Er" in let E2 := fresh in let E3 := fresh in destruct H as (E1 & E2 & E3);
      try rewrite E3 in *; try subst; try rewrite E1 in *
  | lift _ _ = Ret _ _ _ => let E1 := fresh "L" in let E2 := fresh in let E3 := fresh in
      apply lift_inv in H; destruct H as (E1 & E2 & E3); try subst
  | massert _ _ = Ret _ _ _ => let E1 := fresh "As" in let E2 := fresh in let E3 := fresh in
      apply massert_inv in H; destruct H as (E1 & E2 & E3); try subst
  | getc _ = Ret _ _ _ => apply getc_inv in H; let E1 := fresh in let E2 := fresh in let E3 := fresh in
      destruct H as (E1 & E2 & E3); try subst
  | gete _ = Ret _ _ _ => apply gete_inv in H; let E1 := fresh in let E2 := fresh in let E3 := fresh in
      destruct H as (E1 & E2 & E3); try subst
  | modc _ _ = Ret _ _ _ => apply modc_inv in H; let E2 := fresh in let E3 := fresh in
      destruct H as (E2 & E3); try subst
  | emit _ _ = Ret _ _ _ => apply emit_inv in H; let E2 := fresh in let E3 := fresh in
      destruct H as (E2 & E3); try subst
  | getTime _ = Ret _ _ _ => apply getTime_inv in H; let x := fresh "x" in let xr := fresh "xr" in
      let E1 := fresh "Tm" in let E2 := fresh in let E3 := fresh in let E4 := fresh in
      destruct H as (x & xr & E1 & E2 & E3 & E4); try subst
  | on_recs _ _ = Ret _ _ _ => apply on_recs_inv in H; let x := fresh "rc" in
      let E1 := fresh "On" in let E2 := fresh in let E3 := fresh in
      destruct H as (x & E1 & E2 & E3); try subst
  | stuck _ = Ret _ _ _ => apply stuck_inv in H; destruct H
  | undef _ = Ret _ _ _ => apply undef_inv in H; destruct H
  | _ => idtac
  end; cbn [s_ctx s_env] in *.

(** ** Never Undef *)
Definition safe {A} (m : Mo A) (s : st) : Prop := m s <> Undef.
Lemma safe_bind {A B} (m : Mo A) (f : A -> Mo B) s :
  safe m s -> (forall a s1 t, m s = Ret a s1 t -> safe (f a) s1) -> safe (bind m f) s.
Proof.
  unfold safe, bind. intros H1 H2. destruct (m s) as [a s1 t| |]; try congruence.
  specialize (H2 _ _ _ eq_refl). destruct (f a s1); congruence.
Qed.
Lemma safe_ret {A} (a : A) s : safe (ret a) s. Proof. discriminate. Qed.
Lemma safe_stuck {A} s : safe (@stuck A) s. Proof. discriminate. Qed.
Lemma safe_getTime s : safe getTime s.
Proof. unfold safe, getTime. destruct (e_times (s_env s)); discriminate. Qed.
Lemma safe_modc f s : safe (modc f) s. Proof. discriminate. Qed.
Lemma safe_getc s : safe getc s. Proof. discriminate. Qed.
Lemma safe_gete s : safe gete s. Proof. discriminate. Qed.
Lemma safe_emit e s : safe (emit e) s. Proof. discriminate. Qed.
Lemma safe_massert b s : b = true -> safe (massert b) s.
Proof. intros ->. discriminate. Qed.
Lemma safe_lift {A} (r : R A) s : r <> Ub -> safe (lift r) s.
Proof. unfold safe, lift. destruct r; congruence. Qed.
Lemma safe_tsend o s : safe (tsend o) s.
Proof. unfold safe, tsend. destruct (e_sends (s_env s)); [|destruct (_ <? _)]; discriminate. Qed.
Lemma safe_trecv o s : safe (trecv o) s.
Proof. unfold safe, trecv. destruct (e_recvs (s_env s)); [|destruct (_ <? _)]; discriminate. Qed.
Lemma safe_on_recs {A} (f : recs -> R (A * recs)) s : f (x_recs (s_ctx s)) <> Ub -> safe (on_recs f) s.
Proof. unfold safe, on_recs. destruct (f _) as [[? ?]|]; congruence. Qed.

Ltac safe1 :=
  first [ apply safe_ret | apply safe_stuck | apply safe_getTime | apply safe_modc | apply safe_getc
        | apply safe_gete | apply safe_emit | apply safe_tsend | apply safe_trecv ].

Section Ops.
Variable G : cfg.

Lemma after_send_safe bts sent sr s : sr <= bts - sent -> safe (after_send bts sent sr) s.
Proof.
  intros. unfold after_send. destruct (0 <? sr); [|destruct (sr <? 0)];
  repeat (first [safe1 | apply safe_bind; [|intros]]). apply safe_massert. lia.
Qed.
Lemma sendb_loop_safe fuel : forall rest bts start sent s,
  0 <= sent -> sent + zlen rest = bts -> safe (sendb_loop G fuel rest bts start sent) s.
Proof.
  induction fuel as [|fuel IH]; intros rest bts start sent s Hs Hb; [safe1|].
  cbn [sendb_loop]. fold (after_send bts sent).
  destruct (_ && _) eqn:Ec; [|safe1].
  apply safe_bind; [safe1|]. intros sr s1 t1 H1.
  apply tsend_inv in H1. destruct H1 as (n & rr & E1 & -> & H1).
  pose proof (zlen_nonneg rest).
  apply safe_bind; [apply after_send_safe; lia|]. intros sent' s2 t2 H2.
  apply after_send_inv in H2. destruct H2 as (-> & H2).
  apply safe_bind; [safe1|]. intros now s3 t3 _.
  destruct (g_sendto G <=? _); [safe1|].
  destruct H2 as [(? & -> & _)|[(? & -> & _)|(? & -> & _)]].
  - apply IH; [lia|]. rewrite zlen_skipn. lia.
  - destruct fuel; cbn [sendb_loop]; [safe1|].
    replace ((sr <? bts) && (0 <=? sr)) with false by lia. safe1.
  - apply IH; [lia|]. rewrite zlen_skipn. lia.
Qed.
Lemma sendBuffer_safe bs s : safe (sendBuffer G bs) s.
Proof.
  unfold sendBuffer. apply safe_bind; [safe1|]. intros. apply safe_bind; [safe1|]. intros.
  apply sendb_loop_safe; lia.
Qed.
Lemma sendv_loop_safe fuel : forall vs bts start sent s,
  0 <= sent -> sent + zlen (concat vs) = bts -> safe (sendv_loop G fuel vs bts start sent) s.
Proof.
  induction fuel as [|fuel IH]; intros vs bts start sent s Hs Hb; [safe1|].
  cbn [sendv_loop]. fold (after_send bts sent).
  destruct (_ && _) eqn:Ec; [|safe1].
  destruct vs as [|v vs']; [unfold zlen in Hb; cbn in Hb; lia|].
  set (o := if g_writev G then concat (v :: vs') else v).
  assert (Ho : zlen o <= zlen (concat (v :: vs'))).
  { unfold o. destruct (g_writev G); [lia|]. cbn [concat]. rewrite zlen_app.
    pose proof (zlen_nonneg (concat vs')). lia. }
  pose proof (zlen_nonneg o).
  apply safe_bind; [safe1|]. intros sr s1 t1 H1.
  apply tsend_inv in H1. destruct H1 as (n & rr & E1 & -> & H1).
  apply safe_bind; [apply after_send_safe; lia|]. intros sent' s2 t2 H2.
  apply after_send_inv in H2. destruct H2 as (-> & H2).
  apply safe_bind; [safe1|]. intros now s3 t3 _.
  destruct (g_sendto G <? _); [safe1|].
  destruct H2 as [(? & -> & _)|[(? & -> & _)|(? & -> & _)]].
  - apply IH; [lia|]. rewrite advance_concat, zlen_skipn by lia. lia.
  - destruct fuel; cbn [sendv_loop]; [safe1|].
    replace ((sr <? bts) && (0 <=? sr)) with false by lia. safe1.
  - apply IH; [lia|]. rewrite advance_concat, zlen_skipn by lia. lia.
Qed.
Lemma sendMessageVector_safe vs s : safe (sendMessageVector G vs) s.
Proof.
  unfold sendMessageVector. apply safe_bind; [safe1|]. intros. apply safe_bind; [safe1|]. intros.
  apply sendv_loop_safe; lia.
Qed.

(** ** Complete or incomplete sends (possibly several transport calls) *)
(** [sentb bs s ok s' t]: a prefix of bs went out; ok tells whether all of it did. *)
Definition sentb (bs : list Z) (s : st) (ok : bool) (s' : st) (t : list ev) : Prop :=
  exists (k : nat) (l : Z),
    (k <= length bs)%nat /\ outs t = firstn k bs /\ send_only t /\ env_sent s s' /\
    (k = 0%nat -> l = x_lastTx (s_ctx s)) /\ (ok = true <-> k = length bs) /\
    (errs t = false /\ s_ctx s' = set_lastTx (s_ctx s) l \/
     ok = false /\ (exists t0, t = t0 ++ [EOutErr] /\ errs t0 = false) /\
       s_ctx s' = transport_broke (set_lastTx (s_ctx s) l)).

Lemma sent_ok_sentb bs s r s' t : sent_ok bs s r s' t -> sentb bs s (r =? zlen bs) s' t.
Proof.
  intros (k & l & Q1 & Q2 & Q3 & Q4 & Q5 & Q6). exists k, l. repeat split; auto.
  - destruct Q6 as [(?&_&_)|(?&?&_)]; unfold zlen in *; lia.
  - destruct Q6 as [(?&_&_)|(?&?&_)]; unfold zlen in *; lia.
  - destruct Q6 as [(?&?&?)|(?&?&?&?)]; [left; auto|right]. split; auto. unfold zlen in *; lia.
Qed.
Lemma sentb_nil s : sentb [] s true s [].
Proof.
  exists 0%nat, (x_lastTx (s_ctx s)). repeat split; auto. { apply env_sent_refl. }
  left. split; auto. now rewrite set_lastTx_id.
Qed.
Lemma sentb_app a b s s1 ok s2 t1 t2 :
  sentb a s true s1 t1 -> sentb b s1 ok s2 t2 -> sentb (a ++ b) s ok s2 (t1 ++ t2).
Proof.
  intros (k & l & Q1 & Q2 & Q3 & Q4 & Q5 & Q6 & Q7) (k' & l' & Q1' & Q2' & Q3' & Q4' & Q5' & Q6' & Q7').
  destruct Q7 as [(E & Ec)|(? & _)]; [|discriminate].
  assert (k = length a) by tauto. subst k. rewrite firstn_all in Q2.
  rewrite Ec in *.
  exists (length a + k')%nat, l'. rewrite app_length. repeat split; auto.
  - lia.
  - rewrite outs_app, Q2, Q2', firstn_app_2. reflexivity.
  - apply send_only_app; auto.
  - eapply env_sent_trans; eauto.
  - cbn in Q5'. intros. rewrite Q5' by lia. apply Q5. lia.
  - intros. destruct Q6'. lia.
  - intros. destruct Q6'. apply H1. lia.
  - destruct Q7' as [(E' & Ec')|(-> & (t0 & -> & E0) & Ec')].
    + left. split; [rewrite errs_app, E, E'; auto|exact Ec'].
    + right. split; auto. split; [|exact Ec']. exists (t1 ++ t0). rewrite app_assoc, errs_app, E, E0. auto.
Qed.
(** more data after an incomplete send changes nothing *)
Lemma sentb_more a b s s' t : sentb a s false s' t -> sentb (a ++ b) s false s' t.
Proof.
  intros (k & l & Q1 & Q2 & Q3 & Q4 & Q5 & Q6 & Q7).
  assert (k <> length a) by (intro; destruct Q6; intuition congruence).
  exists k, l. rewrite app_length. repeat split; auto.
  - lia.
  - rewrite Q2, firstn_le_app; auto.
  - discriminate.
  - lia.
Qed.

(** ** Acks *)
Lemma serializeAck_bytes ty ak ps id : ackToSend ps = Some (ty, ak) ->
  serializeAck (Some (repeat 0 4)) ty id =
    Ok (if id =? 0 then (BadParameter, Some (repeat 0 4)) else (Success, Some [ty; 2; hi8 id; lo8 id])).
Proof.
  intro H. destruct ps; inversion H; subst; cbn; destruct (id =? 0); reflexivity.
Qed.

Ltac getsend H1 a s1 := match goal with HS : sendBuffer _ _ _ = Ret ?r ?s2 _ |- _ =>
  rename HS into H1; rename r into a; rename s2 into s1; apply sendBuffer_spec in H1;
  let Hb := fresh "Hb" in pose proof (sent_ok_sentb _ _ _ _ _ H1) as Hb end.
Lemma sendPublishAcks_spec id ps s st s' t : sendPublishAcks G id ps s = Ret st s' t ->
  match ackToSend ps with
  | None => st = Success /\ s' = s /\ t = []
  | Some (ty, ak) =>
      id = 0 /\ st = BadParameter /\ s' = s /\ t = [] \/
      id <> 0 /\ x_status (s_ctx s) <> Connected /\ st = must_be_connected (s_ctx s) /\ s' = s /\ t = [] \/
      id <> 0 /\ x_status (s_ctx s) = Connected /\
        exists ok s1, sentb [ty; 2; hi8 id; lo8 id] s ok s1 t /\
          (ok = false /\ st = SendFailed /\ s' = s1 \/
           ok = true /\ exists ns r, updateStateAckApi (x_recs (s_ctx s)) id ak OpSend = Ok (st, ns, r) /\
             s' = mkSt (set_recs (set_ctl (s_ctx s1) true) r) (s_env s1))
  end.
Proof.
  unfold sendPublishAcks. destruct (ackToSend ps) as [[ty ak]|] eqn:E; [|intro H; msteps H; auto].
  intro H. mgo H. rewrite (serializeAck_bytes _ _ _ _ E) in L.
  destruct (id =? 0) eqn:E0.
  - injection L as <- <-. mgo H0. mgo H. left. repeat split; auto; lia.
  - injection L as <- <-. mgo H0. right.
    destruct (x_status (s_ctx s)) eqn:Es; unfold must_be_connected in *; rewrite Es in *; sbeq H0.
    + mgo H0. mgo H. left. repeat split; auto; [lia|discriminate].
    + mgo H0. mgo H. left. repeat split; auto; [lia|discriminate].
    + right. split; [lia|]. split; auto. mgo H0. cbn [app] in *. rewrite app_nil_r.
      getsend H1 a s1.
      exists (a =? 4), s1. change (zlen [ty; 2; hi8 id; lo8 id]) with 4 in Hb.
      destruct (a <? 4) eqn:Er.
      * replace (a =? 4) with false in * by lia. mgo H. rewrite app_nil_r. split; auto.
      * replace (a =? 4) with true in *.
        2: { destruct H1 as (k & l & Q1 & _ & _ & _ & _ & Q6). cbn in Q1. destruct Q6 as [(?&_)|(?&_)]; lia. }
        mgo H. cbn [app]. rewrite !app_nil_r.
        split; auto. right. split; auto. exists q, rc. cbn [set_ctl x_recs] in On.
        destruct Hb as (k & l & _ & _ & _ & _ & _ & _ & [(_ & Ec)|(? & _)]); [|discriminate].
        rewrite Ec in *. cbn in On. auto.
Qed.

(** ** MQTT_Ping *)
Lemma ping_spec s st s' t : ping G s = Ret st s' t ->
  x_status (s_ctx s) <> Connected /\ st = must_be_connected (s_ctx s) /\ s' = s /\ t = [] \/
  x_status (s_ctx s) = Connected /\
    exists ok s1, sentb [192; 0] s ok s1 t /\
    (ok = false /\ st = SendFailed /\ s' = s1 \/
       ok = true /\ st = Success /\
    s' = mkSt (set_keep (s_ctx s1) (x_keep (s_ctx s1)) (x_lastTx (s_ctx s1)) true) (s_env s1)).
Proof.
  unfold ping. intro H. mgo H. change (serializePingreq (Some (repeat 0 2))) with (Ok (Success, Some [192; 0])) in L.
  injection L as <- <-. mgo H. unfold must_be_connected in *.
  destruct (x_status (s_ctx s)) eqn:Es; mgo H.
  - left. repeat split; auto. congruence.
  - left. repeat split; auto. congruence.
  - right. split; auto. cbn [app].
    getsend H0 a s1.
    exists (a =? 2), s1. change (zlen [192; 0]) with 2 in Hb.
    destruct (a <? 2) eqn:Er.
    + replace (a =? 2) with false in * by lia. mgo H. rewrite app_nil_r. split; auto.
    + replace (a =? 2) with true in *.
      2: { destruct H0 as (k & l & Q1 & _ & _ & _ & _ & Q6). cbn in Q1. destruct Q6 as [(?&_)|(?&_)]; lia. }
      mgo H. cbn [app]. rewrite !app_nil_r. split; auto.
Qed.

(** ** MQTT_Disconnect *)
Definition disconnected (c : context) : context :=
  set_buf (set_index (set_status c NotConnected) 0) (repeat 0 (length (x_buf c))).
Lemma disconnect_spec s st s' t : disconnect G s = Ret st s' t ->
  x_status (s_ctx s) = NotConnected /\ st = StNotConnected /\ s' = s /\ t = [] \/
  x_status (s_ctx s) <> NotConnected /\
    exists ok, sentb [224; 0] (mkSt (disconnected (s_ctx s)) (s_env s)) ok s' t /\
    st = (if ok : bool then Success else SendFailed).
Proof.
  unfold disconnect. intro H. mgo H. change (serializeDisconnect (Some (repeat 0 2))) with (Ok (Success, Some [224; 0])) in L.
  injection L as <- <-. mgo H.
  destruct (x_status (s_ctx s)) eqn:Es; cbn [cstatus_beq] in H; mgo H.
  - left. auto.
  - right. split; [congruence|]. cbn [app]. rewrite app_nil_r.
    getsend H1 a s1. change (zlen [224; 0]) with 2 in Hb.
    exists (a =? 2). split; [exact Hb|].
    destruct H1 as (k & l & Q1 & _ & _ & _ & _ & Q6). cbn in Q1.
    destruct (a <? 2) eqn:E1, (a =? 2) eqn:E2; auto; destruct Q6 as [(?&_)|(?&_)]; lia.
  - right. split; [congruence|]. cbn [app]. rewrite app_nil_r.
    getsend H1 a s1. change (zlen [224; 0]) with 2 in Hb.
    exists (a =? 2). split; [exact Hb|].
    destruct H1 as (k & l & Q1 & _ & _ & _ & _ & Q6). cbn in Q1.
    destruct (a <? 2) eqn:E1, (a =? 2) eqn:E2; auto; destruct Q6 as [(?&_)|(?&_)]; lia.
Qed.

(** ** Vectors *)
Lemma block_ok src len b : block src len = Ok b ->
  match src with Some m => len <= zlen m /\ b = firstn (Z.to_nat len) m | None => len = 0 /\ b = [] end.
Proof.
  unfold block. destruct src.
  - destruct (len <=? _) eqn:E; [|discriminate]. intro H; inversion H. split; auto; lia.
  - destruct (len =? 0) eqn:E; [|discriminate]. intro H; inversion H. split; auto; lia.
Qed.
End Ops.
