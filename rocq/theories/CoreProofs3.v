(** What MQTT_Subscribe, MQTT_Unsubscribe and MQTT_Publish do. *)
From Verif Require Import Base StateModel SerModel WireSpec SerHarness SerProofs SerProofs2 SerProofs3 SerProofs4 SerProofs5
  CoreModel CoreHarness CoreProofs CoreProofs2.

Section Ops.
Variable G : cfg.

Lemma sendv_sentb vs s r s' t : sendMessageVector G vs s = Ret r s' t ->
  sentb (concat vs) s (r =? zlen (concat vs)) s' t.
Proof. intro H. apply sent_ok_sentb. eapply sendMessageVector_spec; eauto. Qed.

Ltac getv H a := match goal with HS : sendMessageVector _ _ _ = Ret ?r _ _ |- _ =>
  rename HS into H; try rename r into a; apply sendv_sentb in H end.

(** ** Subscribe and unsubscribe: any arguments *)
Definition sendst (ok : bool) : status := if ok then Success else SendFailed.

Lemma sub_send_any fuel : forall l vs s st s' t, sub_send_loop G fuel l vs s = Ret st s' t ->
  exists bs ok, sentb bs s ok s' t /\ st = sendst ok.
Proof.
  induction fuel as [|fuel IH]; intros l vs s st s' t H; cbn [sub_send_loop] in H; [mgo H|].
  destruct l as [|x l]; [mgo H; exists [], true; split; auto; apply sentb_nil|].
  mgo H. getv Hv a0.
  destruct (a0 =? _) eqn:E; cbn [negb] in H.
  - apply IH in H. destruct H as (bs & ok & H & ->). exists (concat p ++ bs), ok. split; auto.
    cbn [app]. eapply sentb_app; eauto.
  - mgo H. exists (concat p), false. cbn [app]. rewrite app_nil_r. auto.
Qed.
Lemma unsub_send_any fuel : forall l vs s st s' t, unsub_send_loop G fuel l vs s = Ret st s' t ->
  exists bs ok, sentb bs s ok s' t /\ st = sendst ok.
Proof.
  induction fuel as [|fuel IH]; intros l vs s st s' t H; cbn [unsub_send_loop] in H; [mgo H|].
  destruct l as [|x l]; [mgo H; exists [], true; split; auto; apply sentb_nil|].
  mgo H. getv Hv a0.
  destruct (a0 =? _) eqn:E; cbn [negb] in H.
  - apply IH in H. destruct H as (bs & ok & H & ->). exists (concat p ++ bs), ok. split; auto.
    cbn [app]. eapply sentb_app; eauto.
  - mgo H. exists (concat p), false. cbn [app]. rewrite app_nil_r. auto.
Qed.

Lemma encodedString_ok p len x : holds0 p len x -> 0 <= len < 65536 ->
  exists e, encodedString p len = Ok e /\ concat e = mstr x /\ (length e <= 2)%nat.
Proof.
  intros H Hl. pose proof (holds0_len _ _ _ H) as Hz. unfold encodedString, mstr. rewrite Hz.
  destruct H as [(m & -> & Hm & ->)|(-> & -> & ->)].
  - destruct (len =? 0) eqn:E; cbn [negb rassert].
    + eexists; split; [reflexivity|]. split; [|cbn; lia]. replace (Z.to_nat len) with 0%nat by lia.
      cbn. unfold be16. rewrite hi8_eq, lo8_eq by lia. reflexivity.
    + unfold block. replace (len <=? zlen m) with true by lia. cbn [rbind].
      eexists; split; [reflexivity|]. split; [|cbn; lia].
      cbn [concat app]. rewrite app_nil_r. unfold be16. rewrite hi8_eq, lo8_eq by lia. reflexivity.
  - eexists; split; [reflexivity|]. split; [reflexivity|cbn; lia].
Qed.

(** the bytes of a SUBSCRIBE entry as this platform sends it *)
Definition sub_enc (x : list Z * qos) : list Z := mstr (fst x) ++ [qos_byte G (snd x)].

Lemma fill_sub_ok l : forall fs vs, subs_mean l fs -> 3 <= g_maxvec G ->
  exists vs' l' fs1 fs2, fill_sub G l vs = Ok (vs', l') /\ fs = fs1 ++ fs2 /\ subs_mean l' fs2 /\
    concat vs' = concat vs ++ flat_map sub_enc fs1 /\
    (fs <> [] -> zlen vs <= g_maxvec G - 3 -> fs1 <> []).
Proof.
  induction l as [|x l IH]; intros fs vs H HG; inversion H; subst; cbn [fill_sub].
  - exists vs, [], [], []. repeat split; auto; cbn; now rewrite app_nil_r.
  - destruct (zlen vs <=? g_maxvec G - 3) eqn:E.
    + match goal with HH : sub_means x _ |- _ => destruct HH as (Hh & Hl & Hq) end.
      destruct (encodedString_ok (s_filter x) (s_len x) (fst y)) as (e & -> & He & Hle); [left; auto|lia|].
      cbn [rbind].
      assert (Hz : zlen (vs ++ e ++ [[qos_byte G (s_qos x)]]) <=? g_maxvec G = true).
      { rewrite !CoreProofs.zlen_app. change (zlen [[qos_byte G (s_qos x)]]) with 1. unfold zlen in *. lia. }
      rewrite Hz. cbn [rassert].
      destruct (IH l' (vs ++ e ++ [[qos_byte G (s_qos x)]])) as (vs' & l2 & fs1 & fs2 & -> & -> & Hs & Hc & _); auto.
      exists vs', l2, (y :: fs1), fs2. repeat split; auto; [|congruence].
      rewrite Hc. rewrite !concat_app. cbn [concat flat_map app]. rewrite He. unfold sub_enc at 2. rewrite Hq.
      rewrite <- !app_assoc. reflexivity.
    + exists vs, (x :: l), [], (y :: l'). repeat split; auto; [cbn; now rewrite app_nil_r|]. lia.
Qed.
Lemma fill_unsub_ok l : forall fs vs, subs_mean l fs -> 2 <= g_maxvec G ->
  exists vs' l' fs1 fs2, fill_unsub G l vs = Ok (vs', l') /\ fs = fs1 ++ fs2 /\ subs_mean l' fs2 /\
    concat vs' = concat vs ++ flat_map mstr (map fst fs1) /\
    (fs <> [] -> zlen vs <= g_maxvec G - 2 -> fs1 <> []).
Proof.
  induction l as [|x l IH]; intros fs vs H HG; inversion H; subst; cbn [fill_unsub].
  - exists vs, [], [], []. repeat split; auto; cbn; now rewrite app_nil_r.
  - destruct (zlen vs <=? g_maxvec G - 2) eqn:E.
    + match goal with HH : sub_means x _ |- _ => destruct HH as (Hh & Hl & Hq) end.
      destruct (encodedString_ok (s_filter x) (s_len x) (fst y)) as (e & -> & He & Hle); [left; auto|lia|].
      cbn [rbind].
      assert (Hz : zlen (vs ++ e) <=? g_maxvec G = true).
      { rewrite !CoreProofs.zlen_app. unfold zlen in *. lia. }
      rewrite Hz. cbn [rassert].
      destruct (IH l' (vs ++ e)) as (vs' & l2 & fs1 & fs2 & -> & -> & Hs & Hc & _); auto.
      exists vs', l2, (y :: fs1), fs2. repeat split; auto; [|congruence].
      rewrite Hc. rewrite !concat_app. cbn [concat flat_map map]. rewrite He.
      rewrite <- !app_assoc. reflexivity.
    + exists vs, (x :: l), [], (y :: l'). repeat split; auto; [cbn; now rewrite app_nil_r|]. lia.
Qed.

Lemma sub_send_loop_spec fuel : forall l fs vs s st s' t, subs_mean l fs -> 3 <= g_maxvec G ->
  sub_send_loop G fuel l vs s = Ret st s' t ->
  (fs = [] -> st = Success /\ s' = s /\ t = []) /\
  (fs <> [] -> exists ok, sentb (concat vs ++ flat_map sub_enc fs) s ok s' t /\ st = sendst ok).
Proof.
  induction fuel as [|fuel IH]; intros l fs vs s st s' t Hm HG H; cbn [sub_send_loop] in H; [mgo H|].
  destruct l as [|x l].
  - inversion Hm; subst. mgo H. split; auto. congruence.
  - assert (fs <> []) by (inversion Hm; congruence). split; [congruence|]. intros _.
    destruct (fill_sub_ok (x :: l) fs vs Hm HG) as (vs' & l' & fs1 & fs2 & E1 & -> & Hm2 & Ec & _).
    mgo H. rewrite E1 in L. injection L as <- <-. getv Hv a. cbn [app].
    rewrite flat_map_app, app_assoc, <- Ec.
    destruct (a =? _) eqn:E; cbn [negb] in H.
    + specialize (IH _ _ _ _ _ _ _ Hm2 HG H). destruct IH as (I1 & I2).
      destruct fs2 as [|y fs2].
      * destruct I1 as (-> & -> & ->); auto. exists true. cbn [flat_map]. rewrite !app_nil_r. auto.
      * destruct I2 as (ok & Hok & ->); [congruence|]. exists ok. split; auto.
        cbn [concat app] in Hok. eapply sentb_app; eauto.
    + mgo H. exists false. rewrite app_nil_r. split; auto. apply sentb_more; auto.
Qed.
Lemma unsub_send_loop_spec fuel : forall l fs vs s st s' t, subs_mean l fs -> 2 <= g_maxvec G ->
  unsub_send_loop G fuel l vs s = Ret st s' t ->
  (fs = [] -> st = Success /\ s' = s /\ t = []) /\
  (fs <> [] -> exists ok, sentb (concat vs ++ flat_map mstr (map fst fs)) s ok s' t /\ st = sendst ok).
Proof.
  induction fuel as [|fuel IH]; intros l fs vs s st s' t Hm HG H; cbn [unsub_send_loop] in H; [mgo H|].
  destruct l as [|x l].
  - inversion Hm; subst. mgo H. split; auto. congruence.
  - assert (fs <> []) by (inversion Hm; congruence). split; [congruence|]. intros _.
    destruct (fill_unsub_ok (x :: l) fs vs Hm HG) as (vs' & l' & fs1 & fs2 & E1 & -> & Hm2 & Ec & _).
    mgo H. rewrite E1 in L. injection L as <- <-. getv Hv a. cbn [app].
    rewrite map_app, flat_map_app, app_assoc, <- Ec.
    destruct (a =? _) eqn:E; cbn [negb] in H.
    + specialize (IH _ _ _ _ _ _ _ Hm2 HG H). destruct IH as (I1 & I2).
      destruct fs2 as [|y fs2].
      * destruct I1 as (-> & -> & ->); auto. exists true. cbn [flat_map map]. rewrite !app_nil_r. auto.
      * destruct I2 as (ok & Hok & ->); [congruence|]. exists ok. split; auto.
        cbn [concat app] in Hok. eapply sentb_app; eauto.
    + mgo H. exists false. rewrite app_nil_r. split; auto. apply sentb_more; auto.
Qed.

(** A call that was refused: nothing happened. *)
Definition refusal (st : status) : Prop :=
  st = BadParameter \/ st = StNotConnected \/ st = StDisconnectPending.
Lemma must_be_refusal c : x_status c <> Connected -> refusal (must_be_connected c).
Proof. unfold must_be_connected, refusal. destruct (x_status c); auto. congruence. Qed.
Lemma must_be_ok c : must_be_connected c = Success <-> x_status c = Connected.
Proof. unfold must_be_connected. destruct (x_status c); split; congruence. Qed.

Lemma validate_spec subs count id s st s' t : validateSubUnsub subs count id s = Ret st s' t ->
  s' = s /\ t = [] /\ (st = Success \/ st = BadParameter).
Proof.
  unfold validateSubUnsub. destruct subs as [l|]; [|intro H; mgo H; auto].
  destruct (count =? 0); [intro H; mgo H; auto|]. destruct (id =? 0); [intro H; mgo H; auto|].
  intro H. mgo H. destruct (inRecs _); mgo H; auto. destruct (existsb _ _); auto.
Qed.
Lemma subsize_kinds M l n ty st r : calculateSubscriptionPacketSize M l n ty = Ok (st, r) ->
  (st = Success /\ exists x, r = Some x) \/ (st = BadParameter /\ r = None).
Proof.
  unfold calculateSubscriptionPacketSize, rassert. destruct (negb _); [|discriminate].
  unfold sub_entries. destruct (n <=? _); cbn [rbind]; [|discriminate].
  destruct (subscription_size_loop M _ ty 2 Success) as [ps st1] eqn:E.
  assert (K : st1 = Success \/ st1 = BadParameter).
  { assert (forall l a st0 ps st1, st0 = Success \/ st0 = BadParameter ->
      subscription_size_loop M l ty a st0 = (ps, st1) -> st1 = Success \/ st1 = BadParameter) as K0.
    { clear. induction l as [|x l IH]; intros a st0 ps st1 H0; cbn [subscription_size_loop].
      - intro H; inversion H; subst; auto.
      - apply IH. destruct (_ || _); auto. }
    eapply K0; [|exact E]. auto. }
  destruct (MAX_REMAINING_LENGTH <? ps).
  - cbn. intro H; inversion H; auto.
  - destruct K as [-> | ->]; cbn; intro H; inversion H; subst; eauto.
Qed.

Lemma subscribe_any subs count id s st s' t : subscribe G subs count id s = Ret st s' t ->
  s' = s /\ t = [] /\ refusal st /\ (st = BadParameter \/ x_status (s_ctx s) <> Connected /\ st = must_be_connected (s_ctx s)) \/
  x_status (s_ctx s) = Connected /\ exists bs ok, sentb bs s ok s' t /\ st = sendst ok.
Proof.
  unfold subscribe. intro H. mgo H.
  match goal with HV : validateSubUnsub _ _ _ _ = _ |- _ => rename HV into Hval end.
  apply validate_spec in Hval; destruct Hval as (-> & -> & Hval).
  destruct Hval as [-> | ->]; mgo H; [|left; unfold refusal; auto 8].
  assert (KS : exists l, subs = Some l \/ (p = BadParameter /\ q = None)).
  { destruct subs as [l|]; [exists l; auto|]. cbn in L. inversion L. exists []; auto. }
  destruct KS as (l & [-> | (-> & ->)]); [|mgo H; left; unfold refusal; auto 8].
  assert (K : (p = Success /\ exists x, q = Some x) \/ (p = BadParameter /\ q = None)).
  { cbn in L. destruct (count =? 0); [inversion L; auto|]. eapply subsize_kinds; eauto. }
  destruct K as [(-> & [rl ps] & ->)|(-> & ->)]; [|mgo H; left; unfold refusal; auto 8].
  mgo H. destruct (status_beq (must_be_connected (s_ctx s)) Success) eqn:E; mgo H.
  - apply status_beq_eq, must_be_ok in E. right. split; auto.
    unfold sendSubscribeWithoutCopy in H. mgo H. apply sub_send_any in H. cbn [app]. auto.
  - apply status_beq_neq in E. rewrite must_be_ok in E. left. repeat split; auto. now apply must_be_refusal.
Qed.
Lemma unsubscribe_any subs count id s st s' t : unsubscribe G subs count id s = Ret st s' t ->
  s' = s /\ t = [] /\ refusal st /\ (st = BadParameter \/ x_status (s_ctx s) <> Connected /\ st = must_be_connected (s_ctx s)) \/
  x_status (s_ctx s) = Connected /\ exists bs ok, sentb bs s ok s' t /\ st = sendst ok.
Proof.
  unfold unsubscribe. intro H. mgo H.
  match goal with HV : validateSubUnsub _ _ _ _ = _ |- _ => rename HV into Hval end.
  apply validate_spec in Hval; destruct Hval as (-> & -> & Hval).
  destruct Hval as [-> | ->]; mgo H; [|left; unfold refusal; auto 8].
  assert (KS : exists l, subs = Some l \/ (p = BadParameter /\ q = None)).
  { destruct subs as [l|]; [exists l; auto|]. cbn in L. inversion L. exists []; auto. }
  destruct KS as (l & [-> | (-> & ->)]); [|mgo H; left; unfold refusal; auto 8].
  assert (K : (p = Success /\ exists x, q = Some x) \/ (p = BadParameter /\ q = None)).
  { cbn in L. destruct (count =? 0); [inversion L; auto|]. eapply subsize_kinds; eauto. }
  destruct K as [(-> & [rl ps] & ->)|(-> & ->)]; [|mgo H; left; unfold refusal; auto 8].
  mgo H. destruct (status_beq (must_be_connected (s_ctx s)) Success) eqn:E; mgo H.
  - apply status_beq_eq, must_be_ok in E. right. split; auto.
    unfold sendUnsubscribeWithoutCopy in H. mgo H. apply unsub_send_any in H. cbn [app]. auto.
  - apply status_beq_neq in E. rewrite must_be_ok in E. left. repeat split; auto. now apply must_be_refusal.
Qed.

(** ** MQTT_Publish *)
Definition reserve_step (p : pubinfo) (id : Z) (r : recs) : R (status * recs) :=
  match p_qos p with
  | Q0 => Ok (Success, r)
  | _ => let! (st, r1) := reserveState r id (p_qos p) in
         Ok (if status_beq st StateCollision && p_dup p then Success else st, r1)
  end.
(** the store callback, if it is called *)
Definition store_step (p : pubinfo) (id : Z) (c : context) (vs : list (list Z)) (ok : bool)
    (e e' : env) (t : list ev) : Prop :=
  if negb (qos_beq (p_qos p) Q0) && x_retr c
  then ok = match e_stores e with [] => true | b :: _ => b end /\
       e' = env_stores e (tl (e_stores e)) /\ t = [EStore id vs ok]
  else ok = true /\ e' = e /\ t = [].

Lemma publishFlags_publish p : is_byte (publishFlags p) /\ publishFlags p / 16 = 3 /\
  (p_dup p = false -> publishFlags p / 8 mod 2 = 0).
Proof. destruct p as [[] [] [] ? ? ? ?]; repeat split; vm_compute; congruence. Qed.

Lemma set_first_nth l b : l <> [] -> nth 0 (set_first l b) 0 = b.
Proof. destruct l; [congruence|reflexivity]. Qed.
Lemma set_first_twice l a b : set_first (set_first l a) b = set_first l b.
Proof. destruct l; reflexivity. Qed.
Lemma set_first_id l b : nth 0 l b = b -> set_first l b = l.
Proof. destruct l; cbn; [auto|congruence]. Qed.

Lemma dup_set_clear b : is_byte b -> b / 16 = 3 -> b / 8 mod 2 = 0 ->
  exists b', updateDuplicatePublishFlag b true = (Success, b') /\
             updateDuplicatePublishFlag b' false = (Success, b).
Proof.
  intros Hb H3 H0.
  assert (K : forallb (fun b => implb ((b / 16 =? 3) && (b / 8 mod 2 =? 0))
     (match updateDuplicatePublishFlag b true with (Success, b') =>
        match updateDuplicatePublishFlag b' false with (Success, b2) => b2 =? b | _ => false end | _ => false end)) byte_list = true)
    by (vm_compute; reflexivity).
  pose proof (byte_sweep _ K b Hb) as K1. cbv beta in K1.
  replace ((b / 16 =? 3) && (b / 8 mod 2 =? 0)) with true in K1 by lia. cbn [implb] in K1.
  destruct (updateDuplicatePublishFlag b true) as [st b'] eqn:E1. destruct st; try discriminate.
  exists b'. split; auto. destruct (updateDuplicatePublishFlag b' false) as [st b2]. destruct st; try discriminate.
  f_equal. lia.
Qed.

Lemma pub_send p q hs id s st s' t :
  (let* vs := lift (pub_vectors p q hs id) in
   let* r := sendMessageVector G vs in
   ret (if negb (r =? zlen (concat vs)) then SendFailed else Success)) s = Ret st s' t ->
  exists vs sok, pub_vectors p q hs id = Ok vs /\ sentb (concat vs) s sok s' t /\ st = sendst sok.
Proof.
  intro H. mgo H. getv Hv r. cbn [app]. rewrite app_nil_r. eexists _, _. split; [exact L|]. split; [exact Hv|].
  destruct (r =? _); reflexivity.
Qed.
Lemma store_publish_inv id vs s ok s' t : store_publish id vs s = Ret ok s' t ->
  ok = match e_stores (s_env s) with [] => true | b :: _ => b end /\
  s' = mkSt (s_ctx s) (env_stores (s_env s) (tl (e_stores (s_env s)))) /\ t = [EStore id vs ok].
Proof. unfold store_publish. intro H; inversion H; auto. Qed.

Lemma sendPublishWithoutCopy_spec p h hs id s st s' t :
  nth 0 h 0 = publishFlags p ->
  sendPublishWithoutCopy G p h hs id s = Ret st s' t ->
  exists vd ok e te, store_step p id (s_ctx s) vd ok (s_env s) e te /\
    (negb (qos_beq (p_qos p) Q0) && x_retr (s_ctx s) = true ->
       pub_vectors p (set_first h (if p_dup p then publishFlags p else snd (updateDuplicatePublishFlag (publishFlags p) true))) hs id = Ok vd) /\
    (ok = false /\ st = PublishStoreFailed /\ s' = mkSt (s_ctx s) e /\ t = te \/
     ok = true /\ exists vs sok t1, pub_vectors p h hs id = Ok vs /\
       sentb (concat vs) (mkSt (s_ctx s) e) sok s' t1 /\ st = sendst sok /\ t = te ++ t1).
Proof.
  intros Hh H. destruct (publishFlags_publish p) as (Hb & H3 & H0).
  assert (Hne : h <> []). { intros ->. cbn in Hh. rewrite <- Hh in H3. discriminate. }
  unfold sendPublishWithoutCopy, store_step in *. mgo H. rewrite Hh in *.
  destruct (negb (qos_beq (p_qos p) Q0) && x_retr (s_ctx s)) eqn:Eq.
  - assert (K : exists b changed, (if negb (p_dup p)
         then let '(st, b) := updateDuplicatePublishFlag (publishFlags p) true in (st, b, status_beq st Success)
         else (Success, publishFlags p, false)) = (Success, b, changed) /\
         b = (if p_dup p then publishFlags p else snd (updateDuplicatePublishFlag (publishFlags p) true)) /\
         (changed = false -> b = publishFlags p) /\
         (changed = true -> updateDuplicatePublishFlag b false = (Success, publishFlags p))).
    { destruct (p_dup p) eqn:Ed; cbn [negb].
      - exists (publishFlags p), false. repeat split; auto. congruence.
      - destruct (dup_set_clear _ Hb H3 (H0 eq_refl)) as (b' & -> & E2). exists b', true.
        repeat split; auto. congruence. }
    destruct K as (b & changed & EK & Eb & Ec & Ed). rewrite EK in H1. rewrite <- Eb. clear Eb EK.
    mgo H1. match goal with HS : store_publish _ _ _ = _ |- _ => rename HS into Hst end.
    apply store_publish_inv in Hst. destruct Hst as (Eok & -> & ->).
    match goal with |- context [[EStore id ?v ?o]] => exists v, o end. eexists _, _.
    split; [split; [exact Eok|split; reflexivity]|]. split; [auto|].
    match type of Eok with ?o = _ => destruct o end.
    + right. split; auto.
      assert (Hq : p0 = Success /\ q = h /\ s0 = mkSt (s_ctx s) (env_stores (s_env s) (tl (e_stores (s_env s)))) /\ t2 = []).
      { destruct changed; sbeq H1.
        - rewrite set_first_nth in H1 by auto. rewrite (Ed eq_refl) in H1. mgo H1. inversion Er; subst.
          repeat split; auto. rewrite set_first_twice. apply set_first_id. rewrite <- Hh. destruct h; auto; congruence.
        - mgo H1. inversion Er; subst. repeat split; auto. rewrite (Ec eq_refl). apply set_first_id.
          rewrite <- Hh. destruct h; auto; congruence. }
      destruct Hq as (-> & -> & -> & ->). sbeq H.
      apply pub_send in H. destruct H as (vs & sok & K1 & K2 & K3).
      exists vs, sok, t0. repeat split; auto.
    + left. split; auto. sbeq H1. mgo H1. inversion Er; subst. sbeq H. mgo H. auto.
  - mgo H1. inversion Er; subst. sbeq H. apply pub_send in H. destruct H as (vs & sok & K1 & K2 & K3).
    exists [], true, (s_env s), []. repeat split; auto; [congruence|]. right. split; auto.
    exists vs, sok, t0. repeat split; auto.
Qed.

(** the first byte of the header written by MQTT_SerializePublishHeaderWithoutTopic *)
Lemma put_keeps b pos bs b' pos' : put (b, pos) bs = Ok (b', pos') -> (1 <= pos)%nat ->
  nth 0 b' 0 = nth 0 b 0 /\ (1 <= pos')%nat.
Proof.
  unfold put. destruct (_ <=? _)%nat eqn:E; [|discriminate]. intros H Hp.
  assert (K : b' = firstn pos b ++ bs ++ skipn (pos + length bs) b /\ pos' = (pos + length bs)%nat) by (inversion H; auto).
  destruct K as (-> & ->). split; [|lia].
  destruct b as [|x b]; [cbn in E; lia|]. destruct pos; [lia|]. reflexivity.
Qed.
Lemma encode_keeps fuel : forall b pos n b' pos', encode_loop fuel (b, pos) n = Ok (b', pos') -> (1 <= pos)%nat ->
  nth 0 b' 0 = nth 0 b 0 /\ (1 <= pos')%nat.
Proof.
  induction fuel as [|fuel IH]; intros b pos n b' pos' H Hp; cbn [encode_loop] in H; [discriminate|].
  destruct (put (b, pos) _) as [[b1 p1]|] eqn:E1; [|discriminate]. cbn [rbind] in H.
  apply put_keeps in E1; auto. destruct E1 as (E1 & P1).
  destruct (0 <? n / 128).
  - apply IH in H; auto. rewrite <- E1. exact H.
  - inversion H; subst. auto.
Qed.
Lemma pubhdr_first p rl h hs : serializePublishHeaderWithoutTopic p rl (repeat 0 7) = Ok (h, hs) ->
  nth 0 h 0 = publishFlags p.
Proof.
  unfold serializePublishHeaderWithoutTopic. intro H.
  change (put (repeat 0 7, 0%nat) [publishFlags p]) with (Ok ([publishFlags p; 0; 0; 0; 0; 0; 0], 1%nat)) in H.
  cbn [rbind] in H. unfold encodeRemainingLength in H.
  destruct (encode_loop _ _ _) as [[b1 p1]|] eqn:E1; [|discriminate]. cbn [rbind] in H.
  apply encode_keeps in E1; auto. destruct E1 as (E1 & P1). cbn [nth] in E1.
  destruct (put (b1, p1) _) as [[b2 p2]|] eqn:E2; [|discriminate]. cbn [rbind] in H.
  apply put_keeps in E2; auto. destruct E2 as (E2 & P2).
  destruct (put (b2, p2) _) as [[b3 p3]|] eqn:E3; [|discriminate]. cbn [rbind] in H.
  apply put_keeps in E3; auto. destruct E3 as (E3 & P3).
  cbn [fst] in H. assert (h = b3) by congruence. congruence.
Qed.

Lemma pubsize_kinds p st r : getPublishPacketSize p = (st, r) ->
  (st = Success /\ exists x, r = Some x) \/ (st = BadParameter /\ r = None).
Proof.
  unfold getPublishPacketSize. destruct (_ || _); [intro H; inversion H; auto|].
  destruct (calculatePublishPacketSize p); intro H; inversion H; eauto.
Qed.

Lemma sentb_recs bs s ok s' t : sentb bs s ok s' t -> x_recs (s_ctx s') = x_recs (s_ctx s).
Proof.
  intros (k & l & _ & _ & _ & _ & _ & _ & [(_ & ->)|(_ & _ & ->)]); [reflexivity|].
  unfold transport_broke. destruct (cstatus_beq _ _); reflexivity.
Qed.

Lemma publish_spec p id s st s' t : publish G p id s = Ret st s' t ->
  s' = s /\ t = [] /\ refusal st /\
    (st = BadParameter /\ (validatePublishParams (s_ctx s) p id <> Success \/ getPublishPacketSize p = (BadParameter, None)) \/
     x_status (s_ctx s) <> Connected /\ st = must_be_connected (s_ctx s)) \/
  x_status (s_ctx s) = Connected /\ validatePublishParams (s_ctx s) p id = Success /\
  exists rl ps h hs rst r1,
    getPublishPacketSize p = (Success, Some (rl, ps)) /\
    serializePublishHeaderWithoutTopic p rl (repeat 0 7) = Ok (h, hs) /\
    reserve_step p id (x_recs (s_ctx s)) = Ok (rst, r1) /\
    let c1 := set_recs (s_ctx s) r1 in
    (rst <> Success /\ st = rst /\ s' = mkSt c1 (s_env s) /\ t = [] \/
     rst = Success /\ exists vd ok e te, store_step p id c1 vd ok (s_env s) e te /\
       (negb (qos_beq (p_qos p) Q0) && x_retr c1 = true ->
          pub_vectors p (set_first h (if p_dup p then publishFlags p else snd (updateDuplicatePublishFlag (publishFlags p) true))) hs id = Ok vd) /\
       (ok = false /\ st = PublishStoreFailed /\ s' = mkSt c1 e /\ t = te \/
        ok = true /\ exists vs sok t1 s1, pub_vectors p h hs id = Ok vs /\
          sentb (concat vs) (mkSt c1 e) sok s1 t1 /\ t = te ++ t1 /\
          (sok = false /\ st = SendFailed /\ s' = s1 \/
           sok = true /\
           match p_qos p with
           | Q0 => st = Success /\ s' = s1
           | _ => exists ns r2, updateStatePublishApi r1 id OpSend (p_qos p) = Ok (st, ns, r2) /\
                    s' = mkSt (set_recs (s_ctx s1) r2) (s_env s1)
           end))).
Proof.
  unfold publish. intro H. mgo H.
  destruct (status_beq (validatePublishParams (s_ctx s) p id) Success) eqn:Ev; mgo H.
  2: { left. assert (K : validatePublishParams (s_ctx s) p id = BadParameter).
       { unfold validatePublishParams in *.
         destruct (_ && _); auto. destruct (_ && _); auto. destruct (_ && _); auto. discriminate. }
       rewrite K. repeat split; auto; [left; auto|left; split; [auto|left; discriminate]]. }
  apply status_beq_eq in Ev.
  destruct (getPublishPacketSize p) as [ss sr] eqn:Es. pose proof (pubsize_kinds _ _ _ Es) as K.
  destruct K as [(-> & [rl ps] & ->)|(-> & ->)]; [|mgo H; left; unfold refusal; auto 8].
  mgo H. rename p0 into h, q into hs, L into Lh.
  destruct (status_beq (must_be_connected (s_ctx s)) Success) eqn:E.
  2: { mgo H. apply status_beq_neq in E. rewrite must_be_ok in E. left. repeat split; auto. now apply must_be_refusal. }
  apply status_beq_eq, must_be_ok in E. right. split; auto. split; auto.
  mgo H. cbn [app]. rename a into rst. rename H0 into Hr. rename H1 into Hs2.
  match type of Hr with _ = Ret _ ?x ?y => rename x into sr1; rename y into tr1 end.
  assert (K : exists r1, reserve_step p id (x_recs (s_ctx s)) = Ok (rst, r1) /\
              sr1 = mkSt (set_recs (s_ctx s) r1) (s_env s) /\ tr1 = []).
  { unfold reserve_step. destruct (p_qos p) eqn:Eq; cbn [qos_beq negb] in Hr; cbv iota in Hr.
    - mgo Hr. exists (x_recs (s_ctx s)). repeat split; auto. destruct s as [[] ?]; reflexivity.
    - mgo Hr. exists rc. rewrite On. cbn [rbind]. auto.
    - mgo Hr. exists rc. rewrite On. cbn [rbind]. auto. }
  destruct K as (r1 & K1 & -> & ->). cbn [app].
  exists rl, ps, h, hs, rst, r1. split; auto. split; auto. split; auto. cbv zeta.
  destruct (status_beq rst Success) eqn:Er.
  2: { mgo Hs2. mgo H. rewrite Er in H. cbn [andb] in H. mgo H. left. apply status_beq_neq in Er. auto. }
  apply status_beq_eq in Er. subst rst. right. split; auto.
  apply sendPublishWithoutCopy_spec in Hs2; [|eapply pubhdr_first; eauto]. cbn [s_ctx s_env] in Hs2.
  destruct Hs2 as (vd & ok & e & te & S1 & S2 & S3).
  exists vd, ok, e, te. split; auto. split; auto.
  destruct S3 as [(-> & -> & -> & ->)|(-> & vs & sok & t1 & S3 & S4 & -> & ->)].
  - mgo H. left. rewrite app_nil_r. auto.
  - right. split; auto. exists vs, sok.
    destruct sok; cbn [sendst] in H.
    + sbeq H. match type of S4 with sentb _ _ _ ?x _ => exists t1, x end. split; auto. split; auto.
      pose proof (sentb_recs _ _ _ _ _ S4) as Hrec. cbn [s_ctx set_recs x_recs] in Hrec.
      destruct (p_qos p) eqn:Eq; cbn [qos_beq negb] in H; mgo H.
      * rewrite app_nil_r. auto.
      * cbn [app]. rewrite !app_nil_r. split; auto. right. split; auto. exists q, rc. auto.
      * cbn [app]. rewrite !app_nil_r. split; auto. right. split; auto. exists q, rc. auto.
    + sbeq H. mgo H. eexists _, _. split; auto. split; [exact S4|]. rewrite app_nil_r. auto.
Qed.
End Ops.
