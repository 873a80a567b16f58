(** A client without a clock: the time function returns the same value always, and the
    timeouts are 0, as the documentation asks for (core_mqtt.h:341-347).  The budgets are those
    of CoreProofs25 for calls that do not send from a vector of buffers. *)
From Verif Require Import Base StateModel StateSpec StateHarness StateProofs SerModel CoreModel CoreHarness CoreProofs CoreTime CoreProofs25.

(** calls that send with sendBuffer, or nothing *)
Definition plain_op (o : op) : Prop := match o with OPublish _ _ | OSubscribe _ _ _ | OUnsubscribe _ _ _ => False | _ => True end.
Definition plain_call (c : call) : Prop := match c with COp o => plain_op o | CConnect _ _ _ => False | _ => True end.

Section NoClock.
Variable G : cfg.
Variable B N K : Z.
Hypothesis HC : g_sendto G = 0 /\ g_poll G = 0.
Hypothesis HB : 1 <= B.
Hypothesis HM : largest < g_M G /\ B < g_M G.
Hypothesis HK : 0 <= K.
Definition ctx_ok (c : context) : Prop := slots (x_recs c) = N /\ 0 <= x_index c <= B.
Definition Inv (last : Z) (s : st) : Prop :=
  Forall (eq last) (e_times (s_env s)) /\ Forall (fun l => Forall plain_op l /\ ops_msgs l <= K) (e_cbs (s_env s)) /\
  zlen (x_buf (s_ctx s)) = B /\ ctx_ok (s_ctx s).
Definition Used (s s' : st) (t : list ev) (bs br bt : Z) : Prop :=
  zlen (e_sends (s_env s')) = zlen (e_sends (s_env s)) - sendn t /\ zlen (e_recvs (s_env s')) = zlen (e_recvs (s_env s)) - recvn t /\
  sendn t <= bs /\ recvn t <= br /\ zlen (e_times (s_env s)) - bt <= zlen (e_times (s_env s')).
Definition At {A} (last : Z) (s : st) (m : res A) (Q : A -> Prop) (bs br bt : Z) : Prop :=
  match m with
  | Ret a s' t => (exists l', l' = last /\ Inv l' s') /\ Q a /\ Used s s' t bs br bt
  | Undef => True
  | Stuck => False
  end.
Definition Bd {A} (m : Mo A) (Q : A -> Prop) (bs br bt : Z) : Prop := forall last s, Inv last s ->
  bs <= zlen (e_sends (s_env s)) -> br <= zlen (e_recvs (s_env s)) -> bt <= zlen (e_times (s_env s)) -> At last s (m s) Q bs br bt.
Definition any {A} (_ : A) : Prop := True.

Lemma At_bind {A C} (m : Mo A) (f : A -> Mo C) Q Q2 last s b1 r1 t1 bs br bt :
  At last s (m s) Q b1 r1 t1 ->
  (forall a l' s' t, l' = last -> m s = Ret a s' t -> Inv l' s' -> Q a -> Used s s' t b1 r1 t1 -> At l' s' (f a s') Q2 (bs - b1) (br - r1) (bt - t1)) ->
  At last s (bind m f s) Q2 bs br bt.
Proof.
  intros H K1. unfold bind. destruct (m s) as [a s1 u1| |] eqn:E; auto. destruct H as ((l1 & L1 & I1) & Qa & U).
  specialize (K1 a l1 s1 u1 L1 eq_refl I1 Qa U). destruct (f a s1) as [c s2 u2| |]; auto.
  destruct K1 as ((l2 & L2 & I2) & Q2a & V). split; [exists l2; split; [lia|auto]|]. split; auto.
  destruct U as (U1 & U2 & U3 & U4 & U5), V as (V1 & V2 & V3 & V4 & V5). unfold Used. rewrite sendn_app, recvn_app. lia.
Qed.
Lemma Bd_bind {A C} (m : Mo A) (f : A -> Mo C) Q Q2 b1 r1 t1 bs br bt :
  Bd m Q b1 r1 t1 -> (b1 <= bs /\ r1 <= br /\ t1 <= bt) ->
  (forall a, Q a -> Bd (f a) Q2 (bs - b1) (br - r1) (bt - t1)) -> Bd (bind m f) Q2 bs br bt.
Proof.
  intros H L K1 last s HI Hs Hr Ht. eapply At_bind; [apply H; auto; lia|]. intros a l' s' t _ _ I' Qa (U1 & U2 & U3 & U4 & U5). apply K1; auto; lia.
Qed.
Lemma Bd_weak {A} (m : Mo A) (Q Q2 : A -> Prop) b r t bs br bt : Bd m Q b r t -> (forall a, Q a -> Q2 a) -> b <= bs -> r <= br -> t <= bt -> Bd m Q2 bs br bt.
Proof.
  intros H HQ L1 L2 L3 last s HI Hs Hr Ht. specialize (H last s HI). unfold At in *.
  destruct (m s) as [a s' u| |]; auto; [|apply H; lia]. destruct H as (I' & Qa & (U1 & U2 & U3 & U4 & U5)); try lia. split; auto. split; auto. unfold Used. lia.
Qed.
Lemma Bd_le {A} (m : Mo A) b r t bs br bt : Bd m any b r t -> b <= bs -> r <= br -> t <= bt -> Bd m any bs br bt.
Proof. intros. eapply Bd_weak; eauto. Qed.
Lemma Bd_ret {A} (a : A) (Q : A -> Prop) bs br bt : Q a -> 0 <= bs -> 0 <= br -> 0 <= bt -> Bd (ret a) Q bs br bt.
Proof.
  intros Qa L1 L2 L3 last s HI Hs Hr Ht. cbn [ret At]. split; [exists last; split; [lia|auto]|]. split; auto.
  unfold Used. change (sendn []) with 0. change (recvn []) with 0. lia.
Qed.
Lemma Bd_undef {A} (Q : A -> Prop) bs br bt : Bd undef Q bs br bt.
Proof. intros last s _ _ _ _. exact I. Qed.
Lemma Bd_massert b : Bd (massert b) (fun _ => b = true) 0 0 0.
Proof. unfold massert. destruct b; [apply Bd_ret; auto; lia|apply Bd_undef]. Qed.
Lemma Bd_lift {A} (r : R A) (Q : A -> Prop) : (forall a, r = Ok a -> Q a) -> Bd (lift r) Q 0 0 0.
Proof. intros H last s HI _ _ _. unfold lift. destruct r as [a|]; [|exact I]. apply (Bd_ret a Q); auto; try lia; unfold zlen; lia. Qed.
Lemma Bd_getc : Bd getc (fun c => zlen (x_buf c) = B /\ ctx_ok c) 0 0 0.
Proof.
  intros last s HI _ _ _. unfold getc. split; [exists last; split; [lia|auto]|]. split; [apply HI|]. unfold Used. change (sendn []) with 0. change (recvn []) with 0. lia.
Qed.
Lemma Bd_modc f : (forall c, zlen (x_buf c) = B -> ctx_ok c -> zlen (x_buf (f c)) = B /\ ctx_ok (f c)) -> Bd (modc f) any 0 0 0.
Proof.
  intros H last s (I1 & I2 & I3 & I4) _ _ _. unfold modc. split; [exists last; split; [lia|]|].
  - split; [exact I1|]. split; [exact I2|]. apply H; auto.
  - split; [exact I|]. unfold Used. cbn [s_env]. change (sendn []) with 0. change (recvn []) with 0. lia.
Qed.
Lemma Bd_emit e : sendn [e] = 0 -> recvn [e] = 0 -> Bd (emit e) any 0 0 0.
Proof. intros E1 E2 last s HI _ _ _. unfold emit. split; [exists last; split; [lia|auto]|]. split; [exact I|]. unfold Used. rewrite E1, E2. lia. Qed.
Lemma Bd_onrecs {A} (f : recs -> R (A * recs)) : (forall c a c', f c = Ok (a, c') -> slots c' = slots c) -> Bd (on_recs f) any 0 0 0.
Proof.
  intros H last s (I1 & I2 & I3 & I4) _ _ _. unfold on_recs. destruct (f _) as [(a, r)|] eqn:E; [|exact I].
  split; [exists last; split; [lia|]|split; [exact I|]].
  - split; [exact I1|]. split; [exact I2|]. split; [exact I3|]. unfold ctx_ok in *. cbn [s_ctx set_recs x_recs x_index]. apply H in E. split; [lia|apply I4].
  - unfold Used. cbn [s_env]. change (sendn []) with 0. change (recvn []) with 0. lia.
Qed.
(** a reading, with what it is *)
Lemma At_time last s : Inv last s -> 1 <= zlen (e_times (s_env s)) ->
  exists x s', getTime s = Ret (u32 x) s' [] /\ x = last /\ Inv x s' /\ s_ctx s' = s_ctx s /\
    e_sends (s_env s') = e_sends (s_env s) /\ e_recvs (s_env s') = e_recvs (s_env s) /\ zlen (e_times (s_env s')) = zlen (e_times (s_env s)) - 1.
Proof.
  intros (I1 & I2 & I3 & I4) L. unfold getTime. destruct (e_times (s_env s)) as [|x r] eqn:E; [unfold zlen in L; cbn in L; lia|].
  inversion I1 as [|? ? T1 T2 T3]; subst. eexists x, _. split; [reflexivity|]. split; [reflexivity|]. cbn [s_ctx s_env env_times e_times e_sends e_recvs].
  split; [|split; [reflexivity|]; split; [reflexivity|]; split; [reflexivity|]; rewrite zlen_cons'; lia].
  split; [exact T2|]. split; [exact I2|]. split; [exact I3|exact I4].
Qed.
Lemma Bd_time : Bd getTime any 0 0 1.
Proof.
  intros last s HI Hs Hr Ht. destruct (At_time last s HI Ht) as (x & s' & -> & T & I' & _ & E1 & E2 & E3).
  split; [exists x; split; [lia|auto]|]. split; [exact I|]. unfold Used. change (sendn []) with 0. change (recvn []) with 0. rewrite E1, E2, E3. lia.
Qed.
Lemma Bd_gete {A} (f : env -> Mo A) Q bs br bt : (forall e, bs <= zlen (e_sends e) -> br <= zlen (e_recvs e) -> bt <= zlen (e_times e) -> Bd (f e) Q bs br bt) -> Bd (bind gete f) Q bs br bt.
Proof.
  intros H last s HI Hs Hr Ht. unfold bind, gete. specialize (H (s_env s) Hs Hr Ht last s HI Hs Hr Ht). destruct (f (s_env s) s); auto.
Qed.
Lemma At_weak {A} (m : res A) (Q Q2 : A -> Prop) last last' s b r t bs br bt : At last s m Q b r t -> (forall a, Q a -> Q2 a) -> last' = last -> b <= bs -> r <= br -> t <= bt -> At last' s m Q2 bs br bt.
Proof.
  unfold At. destruct m as [a s' u| |]; auto. intros ((l' & L & I') & Qa & (U1 & U2 & U3 & U4 & U5)) HQ L0 L1 L2 L3.
  split; [exists l'; split; [lia|auto]|]. split; auto. unfold Used. lia.
Qed.
(** one reading of the clock, then [f] *)
Lemma At_bind_time {A} (f : Z -> Mo A) Q last s bs br bt : Inv last s -> 1 <= zlen (e_times (s_env s)) ->
  (forall x s', x = last -> Inv x s' -> s_ctx s' = s_ctx s -> zlen (e_sends (s_env s')) = zlen (e_sends (s_env s)) -> zlen (e_recvs (s_env s')) = zlen (e_recvs (s_env s)) ->
     zlen (e_times (s_env s')) = zlen (e_times (s_env s)) - 1 -> At x s' (f (u32 x) s') Q bs br (bt - 1)) ->
  At last s (bind getTime f s) Q bs br bt.
Proof.
  intros HI L H. destruct (At_time last s HI L) as (x & s' & E & T & I' & Ec & E1 & E2 & E3). unfold bind. rewrite E.
  specialize (H x s' T I' Ec ltac:(congruence) ltac:(congruence) E3). destruct (f (u32 x) s') as [a s2 u| |]; auto.
  destruct H as ((l' & L' & I2) & Qa & (U1 & U2 & U3 & U4 & U5)). cbn [app]. split; [exists l'; split; [lia|auto]|]. split; auto. unfold Used. rewrite E1, E2 in *. lia.
Qed.
Lemma transport_broke_frame c : zlen (x_buf c) = B -> ctx_ok c -> zlen (x_buf (transport_broke c)) = B /\ ctx_ok (transport_broke c).
Proof. unfold transport_broke, ctx_ok. destruct (cstatus_beq _ _); cbn [set_status x_buf x_recs x_index]; auto. Qed.

(** what one round of a send loop does between the transport call and the test of
    the timeout: at most one reading *)
Definition round (sendResult bytesToSend sent : Z) : Mo Z :=
  (if 0 <? sendResult then
     massert (sendResult <=? bytesToSend - sent) ;;
     let* t := getTime in
     modc (fun c => set_lastTx c t) ;;
     ret (sent + sendResult)
   else if sendResult <? 0 then
     modc transport_broke ;; ret sendResult
   else ret sent).
Lemma At_round r b n last s : Inv last s -> 1 <= zlen (e_times (s_env s)) ->
  match round r b n s with
  | Ret a s' t => exists l', l' = last /\ Inv l' s' /\ Used s s' t 0 0 1
  | Undef => True | Stuck => False end.
Proof.
  intros HI L. unfold round. destruct (0 <? r).
  - unfold massert. destruct (r <=? b - n); [|exact I]. unfold bind at 1. cbn [ret].
    destruct (At_time last s HI L) as (x & s' & E & T & (I1 & I2 & I3 & I4) & Ec & E1 & E2 & E3). unfold bind at 1. rewrite E. unfold bind, modc, ret. cbn [app].
    exists x. split; [lia|]. split; [split; [exact I1|]; split; [exact I2|]; split; [exact I3|exact I4]|].
    unfold Used. cbn [s_env]. change (sendn []) with 0. change (recvn []) with 0. rewrite E1, E2. lia.
  - assert (L0 : Used s s [] 0 0 1) by (unfold Used; change (sendn []) with 0; change (recvn []) with 0; lia).
    destruct (r <? 0); [|exists last; split; [lia|auto]]. destruct HI as (I1 & I2 & I3 & I4).
    unfold bind, modc, ret. cbn [app]. exists last. split; [lia|]. split; [|exact L0]. pose proof (transport_broke_frame _ I3 I4) as (J1 & J2).
    split; [exact I1|]. split; [exact I2|]. split; [exact J1|exact J2].
Qed.

(** run [m], knowing exactly where it leads *)
Lemma At_step {A C} (m : Mo A) (f : A -> Mo C) (P : A -> st -> list ev -> Prop) Q last s bs br bt :
  match m s with Ret a s' t => P a s' t | Undef => True | Stuck => False end ->
  (forall a s' t, P a s' t -> exists l' b1 r1 t1, l' = last /\ Used s s' t b1 r1 t1 /\ At l' s' (f a s') Q (bs - b1) (br - r1) (bt - t1)) ->
  At last s (bind m f s) Q bs br bt.
Proof.
  intros H K1. unfold bind. destruct (m s) as [a s1 u1| |]; auto. destruct (K1 a s1 u1 H) as (l1 & b1 & r1 & t1 & L1 & U & HA).
  destruct (f a s1) as [c s2 u2| |]; auto. destruct HA as ((l2 & L2 & I2) & Q2a & V). split; [exists l2; split; [lia|auto]|]. split; auto.
  destruct U as (U1 & U2 & U3 & U4 & U5), V as (V1 & V2 & V3 & V4 & V5). unfold Used. rewrite sendn_app, recvn_app. lia.
Qed.
Lemma At_tsend bs last s : Inv last s -> 1 <= zlen (e_sends (s_env s)) ->
  match tsend bs s with Ret a s' t => Inv last s' /\ Used s s' t 1 0 0 | Undef => True | Stuck => False end.
Proof.
  intros (I1 & I2 & I3 & I4) Hs. unfold tsend. destruct (e_sends (s_env s)) as [|n r] eqn:E; [unfold zlen in Hs; cbn in Hs; lia|].
  destruct (n <? 0); (split; [split; [exact I1|]; split; [exact I2|]; split; [exact I3|exact I4]|]);
    unfold Used; cbn [s_env env_sends e_sends e_recvs e_times]; rewrite E, zlen_cons'; unfold sendn, recvn, zlen; cbn [filter length]; lia.
Qed.
Lemma At_sendb fuel : forall rest b t0 sent s, Inv t0 s -> 1 <= zlen (e_sends (s_env s)) -> 2 <= zlen (e_times (s_env s)) -> 0 < Z.of_nat fuel ->
  At t0 s (sendb_loop G fuel rest b (u32 t0) sent s) any 1 0 2.
Proof.
  pose proof HC as (C1 & C2). destruct fuel as [|fuel]; intros rest b t0 sent s HI Hs Ht Hf; [lia|]. cbn [sendb_loop].
  destruct (_ && _); [|apply Bd_ret; auto; try lia; [exact I|apply zlen_pos']].
  eapply At_step with (P := fun _ s' t => Inv t0 s' /\ Used s s' t 1 0 0).
  { apply At_tsend; auto. }
  intros sr s1 u1 (I1 & U1). exists t0, 1, 0, 0. split; [lia|]. split; [exact U1|]. destruct U1 as (U11 & U12 & U13 & U14 & U15).
  eapply At_step with (P := fun _ s' t => exists l', l' = t0 /\ Inv l' s' /\ Used s1 s' t 0 0 1).
  { apply (At_round sr b sent t0 s1 I1). lia. }
  intros n2 s2 u2 (l2 & -> & I2 & U2). exists t0, 0, 0, 1. split; [lia|]. split; [exact U2|]. destruct U2 as (U21 & U22 & U23 & U24 & U25).
  pose proof (sendn_pos u1). pose proof (sendn_pos u2). pose proof (recvn_pos u1). pose proof (recvn_pos u2).
  apply At_bind_time; [auto|lia|]. intros x s3 -> I3 _ E1 E2 E3.
  rewrite elapsed_plain by lia. replace (g_sendto G <=? t0 - t0) with true by lia.
  apply Bd_ret; auto; try lia; try apply zlen_pos'. exact I.
Qed.
Lemma Bd_sendb bs : Bd (sendBuffer G bs) any (msg_sends G) 0 (msg_times G).
Proof.
  unfold msg_sends, msg_times. pose proof HC as (C1 & C2). intros last s HI Hs Hr Ht. unfold sendBuffer.
  apply At_bind_time; [auto|lia|]. intros x s1 -> I1 _ E1 E2 E3. unfold bind, gete.
  assert (HA : At last s1 (sendb_loop G (S (length (e_sends (s_env s1)))) bs (zlen bs) (u32 last) 0 s1) any (g_sendto G + 1) 0 (2 * (g_sendto G + 1) + 1 - 1)).
  { eapply At_weak; [eapply At_sendb|auto|..]; eauto; unfold zlen in *; lia. }
  destruct (sendb_loop _ _ _ _ _ _ _); auto.
Qed.
(** ** Receiving *)
Lemma At_recv_into off n last s : Inv last s -> 1 <= zlen (e_recvs (s_env s)) ->
  match recv_into off n s with Ret r s' t => Inv last s' /\ r <= n /\ Used s s' t 0 1 0 | Undef => True | Stuck => False end.
Proof.
  intros (I1 & I2 & I3 & I4) Hr. unfold recv_into. unfold bind at 1. unfold getc. unfold massert. destruct (_ && _ && _) eqn:Em; [|exact I].
  unfold bind at 1. cbn [ret]. unfold bind at 1. unfold trecv. destruct (e_recvs (s_env s)) as [|a r] eqn:E; [unfold zlen in Hr; cbn in Hr; lia|].
  destruct (a <? 0) eqn:Ea.
  - unfold bind, modc, ret. cbn [app]. split; [|split; [lia|]].
    + split; [exact I1|]. split; [exact I2|]. split; [|exact I4]. cbn [s_ctx set_buf x_buf]. rewrite store_at_len; [exact I3|lia|unfold zlen in *; cbn [length]; lia].
    + unfold Used. cbn [s_env env_recv e_sends e_recvs e_times]. rewrite E, zlen_cons'. unfold sendn, recvn, zlen. cbn [filter length]. lia.
  - unfold bind, modc, ret. cbn [app]. split; [|split].
    + split; [exact I1|]. split; [exact I2|]. split; [|exact I4]. cbn [s_ctx set_buf x_buf]. rewrite store_at_len; [exact I3|lia|unfold zlen in *; rewrite firstn_length; lia].
    + unfold zlen. rewrite firstn_length. lia.
    + unfold Used. cbn [s_env env_recv e_sends e_recvs e_times]. rewrite E, zlen_cons'. unfold sendn, recvn, zlen. cbn [filter length]. lia.
Qed.
Lemma At_recvExact fuel : forall off n total t0 s, Inv t0 s -> 0 <= n ->
  n <= zlen (e_recvs (s_env s)) -> n <= zlen (e_times (s_env s)) -> n < Z.of_nat fuel ->
  At t0 s (recvExact_loop G fuel off n total (u32 t0) s) any 0 n n.
Proof.
  pose proof HC as (C1 & C2).
  induction fuel as [|fuel IH]; intros off n total t0 s HI Hn Hr Ht Hf; [lia|]. cbn [recvExact_loop].
  destruct (0 <? n) eqn:En; [|apply Bd_ret; auto; try lia; [exact I|apply zlen_pos']].
  eapply At_step with (P := fun a s' t => Inv t0 s' /\ a <= n /\ Used s s' t 0 1 0).
  { apply At_recv_into; auto. lia. }
  intros a s1 u1 (I1 & La & U1). exists t0, 0, 1, 0. split; [lia|]. split; [exact U1|]. destruct U1 as (U11 & U12 & U13 & U14 & U15).
  pose proof (sendn_pos u1). pose proof (recvn_pos u1).
  destruct (a <? 0) eqn:Ea.
  - eapply At_bind; [apply Bd_modc; [apply transport_broke_frame|eauto|..]; try apply zlen_pos'|]. cbv beta. intros ? l' s' t L' _ I' _ (V1 & V2 & V3 & V4 & V5).
    apply Bd_ret; auto; try lia; try apply zlen_pos'. exact I.
  - destruct (0 <? a) eqn:Ea'.
    + apply At_bind_time; [auto|lia|]. intros x s2 -> I2 _ E1 E2 E3. unfold massert. destruct (a <=? n); [|exact I].
      unfold bind at 1. cbn [ret]. specialize (IH (off + a) (n - a) (total + a) t0 s2 I2 ltac:(lia)).
      assert (HA : At t0 s2 (recvExact_loop G fuel (off + a) (n - a) (total + a) (u32 t0) s2) any (0 - 0) (n - 1) (n - 0 - 1)).
      { eapply At_weak; [apply IH|auto|..]; try lia. }
      destruct (recvExact_loop _ _ _ _ _ _ _); auto.
    + apply At_bind_time; [auto|lia|]. intros x s2 -> I2 _ E1 E2 E3. rewrite elapsed_plain by lia.
      replace (g_poll G <=? t0 - t0) with true by lia. apply Bd_ret; auto; try lia; try apply zlen_pos'. exact I.
Qed.
Lemma polls_one : polls G = 1.
Proof. pose proof HC as (C1 & C2). unfold polls. lia. Qed.
Lemma Bd_recvExact n : 0 <= n -> Bd (recvExact G n) any 0 (n * polls G) (n * polls G + 1).
Proof.
  rewrite polls_one, Z.mul_1_r. intros Hn last s HI Hs Hr Ht. unfold recvExact. unfold bind at 1. unfold getc.
  unfold massert. destruct (n <=? _); [|exact I]. unfold bind at 1. cbn [ret].
  assert (HA : At last s (bind getTime (fun now => bind gete (fun e => recvExact_loop G (S (length (e_recvs e))) 0 n 0 now)) s) any 0 n (n + 1)).
  { apply At_bind_time; [auto|lia|]. intros x s1 -> I1 _ E1 E2 E3. unfold bind, gete.
    assert (HA : At last s1 (recvExact_loop G (S (length (e_recvs (s_env s1)))) 0 n 0 (u32 last) s1) any 0 n (n + 1 - 1)).
    { eapply At_weak; [eapply At_recvExact|auto|..]; eauto; unfold zlen in *; try lia. }
    destruct (recvExact_loop _ _ _ _ _ _ _); auto. }
  destruct (bind getTime _ s); auto.
Qed.
(** ** Skipping a packet that does not fit *)
Lemma polls_pos : 1 <= polls G.
Proof. unfold polls. lia. Qed.
Lemma ms_pos : 1 <= msg_sends G.
Proof. pose proof HC as (C1 & C2). unfold msg_sends. lia. Qed.
Lemma mt_pos : 1 <= msg_times G.
Proof. pose proof HC as (C1 & C2). unfold msg_times. lia. Qed.
Ltac facts := pose proof polls_pos; pose proof ms_pos; pose proof mt_pos.
Ltac bnd L := eapply Bd_bind; [L|first [lia|nia]|].

Lemma Bd_discardStored fuel : forall btr rem total, 0 <= total <= rem -> rem <= largest -> 1 <= btr -> rem - total < Z.of_nat fuel ->
  Bd (discardStored_loop G fuel btr rem total) any 0 ((rem - total) * polls G) ((rem - total) * (polls G + 1)).
Proof.
  facts. induction fuel as [|fuel IH]; intros btr rem total Ht Hl Hb Hf; [lia|]. cbn [discardStored_loop].
  destruct (total <? rem) eqn:E; [|apply Bd_ret; [exact I|..]; nia].
  set (n := if rem - total <? btr then rem - total else btr). assert (Hn : 1 <= n <= rem - total) by (unfold n; destruct (rem - total <? btr) eqn:E2; lia).
  bnd ltac:(apply (Bd_recvExact n); lia). intros r _. cbv beta. destruct (r =? n) eqn:Er; cbn [negb]; [|apply Bd_ret; [exact I|..]; nia].
  assert (r = n) as -> by lia. unfold largest in Hl. replace (u32 (total + n)) with (total + n) by (unfold u32; rewrite Z.mod_small; lia).
  eapply Bd_le; [apply IH|..]; try lia; [unfold largest; lia|nia..].
Qed.
Lemma Bd_discardStoredPacket type rem hdr : 0 <= rem + hdr <= largest ->
  Bd (discardStoredPacket G type rem hdr) any 0 (largest * polls G) (largest * (polls G + 1)).
Proof.
  facts. intros Hl. unfold discardStoredPacket. destruct HM as (HM1 & HM2). assert (L0 : 0 <= largest) by (unfold largest; lia).
  bnd ltac:(apply Bd_emit; reflexivity). intros _ _.
  bnd ltac:(apply Bd_getc). intros c (Hc1 & Hc2 & Hc3).
  bnd ltac:(apply Bd_massert). intros u Hu. cbv beta in Hu. clear u.
  rewrite (Z.mod_small (rem + hdr - x_index c)) by lia. set (n := rem + hdr - x_index c). assert (Hn : 0 <= n <= largest) by (unfold n; lia).
  apply Bd_gete. intros e _ _ He.
  bnd ltac:(apply Bd_discardStored with (total := 0); try lia; unfold zlen in He; nia). intros total _.
  bnd ltac:(apply Bd_modc).
  { intros c' E1 (E2 & E3). unfold ctx_ok. cbn [set_index set_buf x_buf x_recs x_index]. unfold zlen in *. rewrite repeat_length. split; [exact E1|]. split; [exact E2|lia]. }
  intros _ _. apply Bd_ret; [exact I|..]; nia.
Qed.
(** ** Acknowledgements, PINGREQ, API calls *)
Lemma Bd_acks id ps : Bd (sendPublishAcks G id ps) any (msg_sends G) 0 (msg_times G).
Proof.
  facts. unfold sendPublishAcks. destruct (ackToSend ps) as [(ty, pt)|]; [|apply Bd_ret; [exact I|..]; lia].
  bnd ltac:(apply Bd_lift with (Q := any); intros; exact I). intros (st, buf) _.
  apply Bd_bind with (Q := any) (b1 := msg_sends G) (r1 := 0) (t1 := msg_times G); [|lia|].
  - destruct (status_beq st Success); [|apply Bd_ret; [exact I|..]; lia].
    bnd ltac:(apply Bd_getc). intros c _. destruct (status_beq _ _); [|apply Bd_ret; [exact I|..]; lia].
    bnd ltac:(apply Bd_sendb). intros r _. apply Bd_ret; [exact I|..]; lia.
  - intros st2 _. destruct (status_beq st2 Success); [|apply Bd_ret; [exact I|..]; lia].
    bnd ltac:(apply Bd_modc; intros c' E1 E2; split; [exact E1|exact E2]). intros _ _.
    bnd ltac:(apply Bd_onrecs; intros; eapply ackApi_slots; eauto). intros (st3, ns) _. apply Bd_ret; [exact I|..]; lia.
Qed.
Lemma Bd_ping : Bd (ping G) any (msg_sends G) 0 (msg_times G).
Proof.
  facts. unfold ping. bnd ltac:(apply Bd_lift with (Q := any); intros; exact I). intros (st, buf) _.
  destruct (status_beq st Success); [|apply Bd_ret; [exact I|..]; lia].
  bnd ltac:(apply Bd_getc). intros c _. destruct (status_beq _ _); [|apply Bd_ret; [exact I|..]; lia].
  bnd ltac:(apply Bd_sendb). intros r _. destruct (r <? 2); [apply Bd_ret; [exact I|..]; lia|].
  bnd ltac:(apply Bd_modc; intros c' E1 E2; split; [exact E1|exact E2]). intros _ _. apply Bd_ret; [exact I|..]; lia.
Qed.
Lemma Bd_disconnect : Bd (disconnect G) any (msg_sends G) 0 (msg_times G).
Proof.
  facts. unfold disconnect. bnd ltac:(apply Bd_lift with (Q := any); intros; exact I). intros (st, buf) _.
  destruct (status_beq st Success); [|apply Bd_ret; [exact I|..]; lia].
  bnd ltac:(apply Bd_getc). intros c _. destruct (cstatus_beq _ _); [apply Bd_ret; [exact I|..]; lia|].
  bnd ltac:(apply Bd_modc).
  { intros c' E1 (E2 & E3). unfold ctx_ok. cbn [set_index set_buf set_status x_buf x_recs x_index]. unfold zlen in *. rewrite repeat_length. split; [exact E1|]. split; [exact E2|lia]. }
  intros _ _. bnd ltac:(apply Bd_sendb). intros r _. apply Bd_ret; [exact I|..]; lia.
Qed.
Lemma Bd_op o : plain_op o -> Bd (run_op G o) any (op_msgs o * msg_sends G) 0 (op_msgs o * msg_times G).
Proof.
  facts. destruct o as [p id|subs n id|subs n id| | | |id|]; cbn [run_op op_msgs plain_op]; intro HP; try contradiction.
  - eapply Bd_le; [apply Bd_ping|..]; lia.
  - eapply Bd_le; [apply Bd_disconnect|..]; lia.
  - unfold getPacketId. apply Bd_bind with (Q := any) (b1 := 0) (r1 := 0) (t1 := 0); [|lia|intros; apply Bd_ret; [exact I|..]; lia].
    bnd ltac:(apply Bd_getc). intros c _. bnd ltac:(apply Bd_modc; intros c' E1 E2; split; [exact E1|exact E2]). intros _ _.
    bnd ltac:(apply Bd_emit; reflexivity). intros _ _. apply Bd_ret; [exact I|..]; lia.
  - unfold cancel. bnd ltac:(apply Bd_getc). intros c _. destruct (outRecs _); [|apply Bd_ret; [exact I|..]; lia].
    eapply Bd_le; [apply Bd_onrecs; intros; eapply remove_slots; eauto|..]; lia.
  - unfold checkConnectStatus. bnd ltac:(apply Bd_getc). intros c _. apply Bd_ret; [exact I|..]; lia.
Qed.
Lemma Bd_ops l : Forall plain_op l -> Bd (run_ops G l) any (ops_msgs l * msg_sends G) 0 (ops_msgs l * msg_times G).
Proof.
  facts. induction l as [|o l IH]; intro HP; [apply Bd_ret; [exact I|..]; cbn; lia|]. cbn [run_ops]. pose proof (op_msgs_pos o). pose proof (ops_msgs_pos l).
  assert (E : ops_msgs (o :: l) = op_msgs o + ops_msgs l) by reflexivity. rewrite E.
  bnd ltac:(apply Bd_op; now inversion HP). intros st _. eapply Bd_le; [apply IH; now inversion HP|..]; lia.
Qed.
Lemma Bd_callback ty data id pub r : Bd (callback G ty data id pub r) any (K * msg_sends G) 0 (K * msg_times G).
Proof.
  facts. unfold callback. bnd ltac:(apply Bd_emit; reflexivity). intros _ _. rewrite !Z.sub_0_r.
  intros last s (I1 & I2 & I3 & I4) Hs Hr Ht. unfold bind at 1. unfold gete. unfold bind at 1.
  set (l := match e_cbs (s_env s) with [] => [] | l :: _ => l end). assert (Hl : ops_msgs l <= K).
  { unfold l. destruct (e_cbs (s_env s)) as [|x r0]; [cbn; lia|]. now inversion I2. }
  assert (Hp : Forall plain_op l) by (unfold l; destruct (e_cbs (s_env s)) as [|x r0]; [constructor|]; inversion I2; tauto).
  set (s1 := mkSt (s_ctx s) (env_cbs (s_env s) (tl (e_cbs (s_env s))))).
  assert (J : Inv last s1).
  { split; [exact I1|]. split; [|split; [exact I3|exact I4]]. unfold s1. cbn [s_env env_cbs e_cbs]. destruct (e_cbs (s_env s)); [constructor|]. now inversion I2. }
  pose proof (Bd_le _ _ _ _ (K * msg_sends G) 0 (K * msg_times G) (Bd_ops l Hp) ltac:(nia) ltac:(lia) ltac:(nia) last s1 J Hs Hr Ht) as HA.
  destruct (run_ops G l s1) as [a s2 u| |]; exact HA.
Qed.

(** ** Handling received packets *)
Lemma Bd_keepAlive : Bd (handleKeepAlive G) any (msg_sends G) 0 (msg_times G + 1).
Proof.
  facts. unfold handleKeepAlive. bnd ltac:(apply Bd_time). intros now _. bnd ltac:(apply Bd_getc). intros c _. cbv zeta.
  destruct (x_waiting c); [apply Bd_ret; [exact I|..]; lia|].
  destruct (_ && _); [eapply Bd_le; [apply Bd_ping|..]; lia|]. destruct (_ && _); [eapply Bd_le; [apply Bd_ping|..]; lia|apply Bd_ret; [exact I|..]; lia].
Qed.
Lemma Bd_incomingPublish ty rem data : Bd (handleIncomingPublish G ty rem data) any ((K + 1) * msg_sends G) 0 ((K + 1) * msg_times G).
Proof.
  facts. unfold handleIncomingPublish. bnd ltac:(apply Bd_lift with (Q := any); intros; exact I). intros (st, d) _.
  assert (HR : forall x : status, Bd (ret x) any ((K + 1) * msg_sends G - 0) (0 - 0) ((K + 1) * msg_times G - 0)) by (intro; apply Bd_ret; [exact I|..]; nia).
  destruct st; auto. destruct d as [(pub, pid)|]; auto.
  bnd ltac:(apply Bd_getc). intros c _. destruct (_ && _); [apply Bd_ret; [exact I|..]; nia|].
  bnd ltac:(apply Bd_onrecs; intros; eapply publishApi_slots; eauto). intros (st, ns) _.
  destruct (if status_beq st Success then _ else _) as ((st2, dup), ns2). cbv zeta. destruct (status_beq st2 Success); [|apply Bd_ret; [exact I|..]; nia].
  apply Bd_bind with (Q := any) (b1 := K * msg_sends G) (r1 := 0) (t1 := K * msg_times G); [|nia|].
  { destruct dup; [apply Bd_ret; [exact I|..]; nia|apply Bd_callback]. }
  intros _ _. eapply Bd_le; [apply Bd_acks|..]; nia.
Qed.
Lemma Bd_publishAcks ty rem data : Bd (handlePublishAcks G ty rem data) any ((K + 1) * msg_sends G) 0 ((K + 1) * msg_times G).
Proof.
  facts. unfold handlePublishAcks. bnd ltac:(apply Bd_lift with (Q := any); intros; exact I). intros ack _.
  bnd ltac:(apply Bd_lift with (Q := any); intros; exact I). intros ((st, pid), x) _. cbv zeta.
  apply Bd_bind with (Q := any) (b1 := 0) (r1 := 0) (t1 := 0); [|nia|].
  { destruct (status_beq st Success); [apply Bd_onrecs; intros; eapply ackApi_slots; eauto|apply Bd_ret; [exact I|..]; lia]. }
  intros (st2, ns) _. bnd ltac:(apply Bd_getc). intros c _.
  apply Bd_bind with (Q := any) (b1 := 0) (r1 := 0) (t1 := 0); [|nia|].
  { destruct (_ && _ && _); [apply Bd_emit; reflexivity|apply Bd_ret; [exact I|..]; lia]. }
  intros _ _. destruct (status_beq st2 Success); [|apply Bd_ret; [exact I|..]; nia].
  bnd ltac:(apply Bd_callback). intros _ _. eapply Bd_le; [apply Bd_acks|..]; nia.
Qed.
Lemma Bd_incomingAck ty rem data mk : Bd (handleIncomingAck G ty rem data mk) any ((K + 1) * msg_sends G) 0 ((K + 1) * msg_times G).
Proof.
  facts. unfold handleIncomingAck. destruct (_ || _); [apply Bd_publishAcks|].
  apply Bd_bind with (Q := any) (b1 := 0) (r1 := 0) (t1 := 0); [|nia|].
  - destruct (ty =? PKT_PINGRESP).
    + bnd ltac:(apply Bd_lift with (Q := any); intros; exact I). intros ((st, pid), x) _.
      apply Bd_bind with (Q := any) (b1 := 0) (r1 := 0) (t1 := 0); [|lia|].
      { destruct (_ && _); [apply Bd_modc; intros c' E1 E2; split; [exact E1|exact E2]|apply Bd_ret; [exact I|..]; lia]. }
      intros _ _. apply Bd_ret; [exact I|..]; lia.
    + destruct (_ || _); [|apply Bd_ret; [exact I|..]; lia]. bnd ltac:(apply Bd_lift with (Q := any); intros; exact I). intros ((st, pid), x) _. apply Bd_ret; [exact I|..]; lia.
  - intros ((st, id), inv) _. destruct inv; [|apply Bd_ret; [exact I|..]; nia]. bnd ltac:(apply Bd_callback). intros _ _. apply Bd_ret; [exact I|..]; nia.
Qed.
Lemma Bd_shift total : 0 <= total -> Bd (shift_buffer G total) any 0 0 0.
Proof.
  intros Ht last s (I1 & I2 & I3 & I4 & I5) _ _ _. unfold shift_buffer. unfold bind at 1. unfold modc at 1. unfold bind at 1. unfold getc. cbn [s_ctx].
  unfold bind at 1. unfold massert. destruct (_ <=? _) eqn:E; [|exact I]. cbn [ret]. unfold modc. cbn [app].
  cbn [set_index x_index x_buf] in E. split; [|split; [exact I|unfold Used, sendn, recvn, zlen; cbn [s_env filter length]; lia]].
  exists last. split; [lia|]. split; [exact I1|]. split; [exact I2|]. unfold ctx_ok. cbn [s_ctx set_buf set_index x_buf x_recs x_index] in *.
  assert (Hi : 0 <= (x_index (s_ctx s) - total) mod g_M G) by (apply Z.mod_pos_bound; lia).
  split; [|split; [exact I4|lia]]. rewrite store_at_len; [exact I3|lia|]. unfold sub, zlen in *. rewrite firstn_length, skipn_length. lia.
Qed.


(** ** One pass of the receive loop *)
Lemma recv_into_index off n s r s' t : recv_into off n s = Ret r s' t -> x_index (s_ctx s') = x_index (s_ctx s).
Proof.
  unfold recv_into. unfold bind at 1. unfold getc. unfold massert. destruct (_ && _ && _); [|discriminate].
  unfold bind at 1. cbn [ret]. unfold bind at 1. unfold trecv. destruct (e_recvs (s_env s)) as [|a r0]; [discriminate|].
  destruct (a <? 0); unfold bind, modc, ret; intro H; injection H as _ <- _; reflexivity.
Qed.
Lemma Bd_use {A} (m : Mo A) Q bs br bt last s : Bd m Q bs br bt -> Inv last s ->
  bs <= zlen (e_sends (s_env s)) -> br <= zlen (e_recvs (s_env s)) -> bt <= zlen (e_times (s_env s)) -> At last s (m s) Q bs br bt.
Proof. intros H. apply H. Qed.
Definition pass_times : Z := (K + 2) * msg_times G + largest * (polls G + 1) + 2.
Lemma Bd_single mk : Bd (receiveSingleIteration G mk) any ((K + 2) * msg_sends G) (1 + largest * polls G) pass_times.
Proof.
  facts. assert (L0 : 0 <= largest) by (unfold largest; lia). assert (LP : 0 <= largest * polls G) by nia.
  assert (M0 : 0 <= K * msg_sends G) by nia. assert (M1 : 0 <= K * msg_times G) by nia. destruct HM as (HM1 & HM2).
  intros last s HI Hs Hr Ht. unfold receiveSingleIteration. unfold bind at 1. unfold getc at 1.
  match goal with |- At _ _ (match ?m with _ => _ end) _ _ _ _ => assert (HA : At last s m any ((K + 2) * msg_sends G) (1 + largest * polls G) pass_times) end.
  2: { match goal with |- At _ _ (match ?m with _ => _ end) _ _ _ _ => destruct m; exact HA end. }
  set (c := s_ctx s) in *. pose proof HI as (_ & _ & J3 & J4 & J5). fold c in J3, J4, J5.
  eapply At_step with (P := fun r s1 t => Inv last s1 /\ r <= B - x_index c /\ Used s s1 t 0 1 0 /\ x_index (s_ctx s1) = x_index c).
  { rewrite Z.mod_small by lia. pose proof (At_recv_into (x_index c) (zlen (x_buf c) - x_index c) last s HI ltac:(lia)) as HA.
    destruct (recv_into _ _ s) as [r s1 t| |] eqn:E; [|exact I|exact HA]. destruct HA as (A1 & A2 & A3). apply recv_into_index in E. split; [exact A1|]. split; [lia|]. split; [exact A3|exact E]. }
  intros r s1 u1 (I1 & Hr1 & U1 & Ei). exists last, 0, 1, 0. split; [lia|]. split; [exact U1|]. destruct U1 as (U11 & U12 & U13 & U14 & U15).
  pose proof (sendn_pos u1). pose proof (recvn_pos u1).
  eapply At_bind with (Q := fun h : status * Z * Z * Z => let '(_, _, rem, hdr) := h in 0 <= rem <= 268435455 /\ 0 <= hdr <= 5) (b1 := 0) (r1 := 0) (t1 := 0).
  { destruct (r <? 0) eqn:Er.
    - eapply Bd_bind with (Q := any) (b1 := 0) (r1 := 0) (t1 := 0); [apply Bd_modc; apply transport_broke_frame|lia| |exact I1|apply zlen_pos'..].
      intros _ _. apply Bd_ret; lia.
    - destruct (_ && _); [apply Bd_ret; [lia|lia|lia|lia|exact I1|apply zlen_pos'..]|].
      eapply At_step with (P := fun _ s2 t => Inv last s2 /\ Used s1 s2 t 0 0 0).
      + unfold modc. destruct I1 as (K1 & K2 & K3 & K4 & K5). split; [|unfold Used, sendn, recvn, zlen; cbn [s_env filter length]; lia].
        split; [exact K1|]. split; [exact K2|]. split; [exact K3|]. split; [exact K4|]. cbn [s_ctx set_index x_index]. rewrite Ei, Z.mod_small by lia. lia.
      + intros _ s2 u2 (I2 & U2). exists last, 0, 0, 0. split; [lia|]. split; [exact U2|]. destruct U2 as (V1 & V2 & V3 & V4 & V5). pose proof (sendn_pos u2). pose proof (recvn_pos u2).
        eapply Bd_bind with (Q := any) (b1 := 0) (r1 := 0) (t1 := 0); [eapply Bd_weak; [apply Bd_getc|..]; try lia; intros; exact I|lia| |exact I2|apply zlen_pos'..].
        intros c2 _. bnd ltac:(apply Bd_lift with (Q := fun x => processIncomingPacketTypeAndLength (x_buf c2) (x_index c2) = Ok x); auto).
        intros (st, h) E. apply Bd_ret; [|lia..]. destruct h as [((ty, rl), hl)|]; [|lia]. now apply process_header_bound in E. }
  intros (((st, ty), rem), hdr) l2 s2 u2 L2 _ I2 (Q1 & Q2) (V1 & V2 & V3 & V4 & V5). cbv zeta. pose proof (sendn_pos u2). pose proof (recvn_pos u2).
  apply Bd_use; [|exact I2|unfold pass_times in *; lia..].
  apply Bd_bind with (Q := any) (b1 := msg_sends G) (r1 := 0) (t1 := msg_times G + 1); [|unfold pass_times; nia|].
  { destruct (_ && _); [|apply Bd_ret; [exact I|..]; lia]. bnd ltac:(apply Bd_keepAlive). intros k _. apply Bd_ret; [exact I|..]; lia. }
  intros st2 _. unfold pass_times. bnd ltac:(apply Bd_getc). intros c2 (D1 & D2 & D3).
  apply Bd_bind with (Q := any) (b1 := 0) (r1 := largest * polls G) (t1 := largest * (polls G + 1)); [|unfold pass_times; nia|].
  { destruct (negb _); [apply Bd_ret; [exact I|..]; nia|]. destruct (zlen (x_buf c2) <? rem + hdr) eqn:E; [apply Bd_discardStoredPacket; unfold largest; lia|].
    destruct (x_index c2 <? rem + hdr); apply Bd_ret; try exact I; nia. }
  intros st3 _. apply Bd_bind with (Q := any) (b1 := (K + 1) * msg_sends G) (r1 := 0) (t1 := (K + 1) * msg_times G + 1); [|unfold pass_times; nia|].
  - destruct (status_beq st3 Success); [|apply Bd_ret; [exact I|..]; nia]. bnd ltac:(apply Bd_getc). intros c3 _.
    bnd ltac:(apply Bd_emit; reflexivity). intros _ _.
    apply Bd_bind with (Q := any) (b1 := (K + 1) * msg_sends G) (r1 := 0) (t1 := (K + 1) * msg_times G); [|nia|].
    { destruct (_ =? PKT_PUBLISH); [apply Bd_incomingPublish|apply Bd_incomingAck]. }
    intros st4 _. bnd ltac:(apply Bd_shift; lia). intros _ _. apply Bd_bind with (Q := any) (b1 := 0) (r1 := 0) (t1 := 1); [|nia|].
    { destruct (status_beq st4 Success); [|apply Bd_ret; [exact I|..]; lia]. bnd ltac:(apply Bd_time). intros now _.
      eapply Bd_le; [apply Bd_modc; intros c' E1 E2; split; [exact E1|exact E2]|..]; lia. }
    intros _ _. apply Bd_ret; [exact I|..]; nia.
  - intros st4 _. apply Bd_ret; [exact I|..]; unfold pass_times; nia.
Qed.


Lemma Bd_call c : plain_call c -> Bd (run_call G c) any (call_msgs N K c * msg_sends G) (call_recvs G c) (call_times G N K c).
Proof.
  facts. intros HS. assert (L0 : 0 <= largest) by (unfold largest; lia). assert (LP : 0 <= largest * polls G) by nia.
  assert (M1 : 0 <= K * msg_times G) by nia. unfold call_times. destruct c as [o|ci will tmo| |]; cbn [run_call call_msgs call_recvs plain_call] in *; [..|contradiction| |].
  - pose proof (op_msgs_pos o). eapply Bd_le; [apply Bd_op; exact HS|..]; nia.
  - unfold processLoop. bnd ltac:(apply Bd_modc; intros c' E1 E2; split; [exact E1|exact E2]). intros _ _. eapply Bd_le; [apply Bd_single|..]; unfold pass_times; nia.
  - eapply Bd_le; [apply Bd_single|..]; unfold pass_times; nia.
Qed.
Lemma plain_pos c : plain_call c -> 0 <= call_msgs N K c /\ 0 <= call_recvs G c /\ 0 <= call_times G N K c.
Proof.
  facts. assert (L0 : 0 <= largest) by (unfold largest; lia). unfold call_times. destruct c as [o| | |]; cbn [call_msgs call_recvs plain_call]; [pose proof (op_msgs_pos o)|contradiction|..]; intros _; repeat split; nia.
Qed.
Lemma Bd_calls l : Forall plain_call l ->
  Bd (run_calls G l) any (calls_sum (call_msgs N K) l * msg_sends G) (calls_sum (call_recvs G) l) (calls_sum (call_times G N K) l).
Proof.
  facts. intros HS. induction HS as [|c l Hc Hl IH]; [apply Bd_ret; [exact I|..]; cbn; lia|]. cbn [run_calls].
  assert (P : 0 <= calls_sum (call_msgs N K) l /\ 0 <= calls_sum (call_recvs G) l /\ 0 <= calls_sum (call_times G N K) l).
  { clear -Hl HC HK HB HM. induction Hl as [|y l0 Hy Hl0 IHl]; cbn [calls_sum fold_right]; [lia|]. pose proof (plain_pos y Hy). unfold calls_sum in IHl. lia. }
  pose proof (plain_pos c Hc). change (calls_sum ?f (c :: l)) with (f c + calls_sum f l).
  bnd ltac:(apply (Bd_call c); auto). intros st _.
  eapply Bd_bind; [apply IH|nia|]. intros sts _. apply Bd_ret; [exact I|..]; nia.
Qed.
End NoClock.

(** ** Sending without a clock *)
Lemma waits_sendv G fuel : forall vs b x sent s n m, 0 <= g_sendto G -> 0 <= sent < b ->
  e_sends (s_env s) = repeat 0 n -> e_times (s_env s) = repeat x m -> concat vs <> [] ->
  sendv_loop G fuel vs b (u32 x) sent s = Stuck.
Proof.
  induction fuel as [|fuel IH]; intros vs b x sent s n m HG Hs E1 E2 Hv; [reflexivity|]. cbn [sendv_loop].
  replace ((sent <? b) && (0 <=? sent)) with true by (symmetry; apply andb_true_intro; lia).
  destruct vs as [|v vs]; [now cbn in Hv|].
  unfold bind at 1. unfold tsend. rewrite E1. destruct n as [|n]; [reflexivity|]. cbn [repeat]. replace (0 <? 0) with false by lia.
  set (of := if g_writev G then concat (v :: vs) else v). replace (Z.min 0 (zlen of)) with 0 by (unfold zlen; lia). cbv iota beta.
  unfold bind at 1. cbn [Z.ltb Z.compare ret]. unfold bind at 1. unfold getTime. cbn [s_env env_sends e_times]. rewrite E2.
  destruct m as [|m]; [reflexivity|]. cbn [repeat].
  unfold elapsed. rewrite Z.sub_diag. change (u32 0) with 0. replace (g_sendto G <? 0) with false by lia.
  rewrite (IH (advance (v :: vs) 0) _ _ _ _ n m); auto. rewrite advance_concat; [exact Hv|]. unfold zlen. lia.
Qed.
Lemma waits_vector G vs s n m x : 0 <= g_sendto G -> e_sends (s_env s) = repeat 0 n -> e_times (s_env s) = repeat x m -> concat vs <> [] ->
  sendMessageVector G vs s = Stuck.
Proof.
  intros HG E1 E2 Hv. unfold sendMessageVector. unfold bind at 1. unfold getTime. rewrite E2. destruct m as [|m]; [reflexivity|]. cbn [repeat].
  unfold bind at 1. unfold gete. rewrite (waits_sendv G _ vs _ x 0 _ n m); auto. destruct (concat vs); [congruence|]. unfold zlen. cbn [length]. lia.
Qed.
Lemma whole_sendv G fuel : forall vs b x sent s r s' t, 0 <= g_sendto G -> Forall (eq x) (e_times (s_env s)) -> sent + zlen (concat vs) = b -> 0 <= sent ->
  sendv_loop G fuel vs b (u32 x) sent s = Ret r s' t -> r = b \/ errs t = true.
Proof.
  induction fuel as [|fuel IH]; intros vs b x sent s r s' t HG HT Hb Hs H; cbn [sendv_loop] in H; [discriminate|].
  assert (Hz : 0 <= zlen (concat vs)) by (unfold zlen; lia).
  destruct (sent <? b) eqn:E1; cbn [andb] in H; [|apply ret_inv in H; destruct H as (-> & _); left; lia].
  replace (0 <=? sent) with true in H by lia.
  apply bind_inv in H. destruct H as (sr & s1 & t1 & t2 & H1 & H & ->). destruct vs as [|v vs]; [discriminate|].
  apply tsend_inv in H1. destruct H1 as (k & ks & Ek & -> & H1). destruct H1 as [(_ & _ & ->)|(Hk & -> & ->)]; [right; reflexivity|].
  set (of := if g_writev G then concat (v :: vs) else v) in *.
  assert (Hof : 0 <= zlen of <= zlen (concat (v :: vs))) by (unfold of; cbn [concat]; unfold zlen; rewrite app_length; destruct (g_writev G); [rewrite app_length|]; lia).
  set (sr := Z.min k (zlen of)) in *.
  apply bind_inv in H. destruct H as (sent1 & s2 & t3 & t4 & H2 & H & ->).
  assert (Hx : sent1 = sent + sr /\ Forall (eq x) (e_times (s_env s2))).
  { destruct (0 <? sr) eqn:E3.
    - apply bind_inv in H2. destruct H2 as (u & s3 & t5 & t6 & H3 & H2 & ->). unfold massert in H3. destruct (sr <=? b - sent); [|discriminate]. apply ret_inv in H3. destruct H3 as (_ & -> & ->).
      apply bind_inv in H2. destruct H2 as (now & s4 & t7 & t8 & H3 & H2 & ->). apply getTime_inv in H3. destruct H3 as (y & r0 & Ey & -> & -> & ->).
      apply bind_inv in H2. destruct H2 as (u2 & s5 & t9 & t10 & H3 & H2 & ->). unfold modc in H3. injection H3 as <- <- <-. apply ret_inv in H2. destruct H2 as (-> & -> & ->).
      split; [reflexivity|]. cbn [s_env env_times env_sends e_times] in *. rewrite Ey in HT. now inversion HT.
    - destruct (sr <? 0) eqn:E4; [lia|]. apply ret_inv in H2. destruct H2 as (-> & -> & ->). split; [lia|exact HT]. }
  destruct Hx as (-> & HT2). apply bind_inv in H. destruct H as (now & s3 & t5 & t6 & H3 & H & ->). apply getTime_inv in H3.
  destruct H3 as (y & r0 & Ey & -> & -> & ->). rewrite Ey in HT2. inversion HT2 as [|? ? Exy HT3]; subst.
  unfold elapsed in H. rewrite Z.sub_diag in H. change (u32 0) with 0 in H. replace (g_sendto G <? 0) with false in H by lia.
  apply IH in H; [|exact HG|exact HT3|rewrite advance_concat, zlen_skipn by lia; lia|lia].
  destruct H as [->|H]; [left; reflexivity|right]. unfold errs in *. rewrite !existsb_app, H. now rewrite !orb_true_r.
Qed.
Lemma whole_vector G vs x s r s' t : 0 <= g_sendto G -> Forall (eq x) (e_times (s_env s)) -> sendMessageVector G vs s = Ret r s' t ->
  r = zlen (concat vs) \/ errs t = true.
Proof.
  intros HG HT H. unfold sendMessageVector in H. apply bind_inv in H. destruct H as (now & s1 & t1 & t2 & H1 & H & ->). apply getTime_inv in H1.
  destruct H1 as (y & r0 & Ey & -> & -> & ->). rewrite Ey in HT. inversion HT as [|? ? E HT2]; subst.
  apply bind_inv in H. destruct H as (e & s2 & t3 & t4 & H1 & H & ->). apply gete_inv in H1. destruct H1 as (-> & -> & ->). cbn [app].
  apply whole_sendv in H; auto; lia.
Qed.
Lemma once_sendb G bs x s r s' t : g_sendto G = 0 -> Forall (eq x) (e_times (s_env s)) -> sendBuffer G bs s = Ret r s' t ->
  bs = [] /\ t = [] \/ bs <> [] /\ exists e, t = [e] /\ match e with EOut out => out = firstn (Z.to_nat r) bs /\ 0 <= r <= zlen bs | e => e = EOutErr /\ r < 0 end.
Proof.
  intros HG HT H. unfold sendBuffer in H. apply bind_inv in H. destruct H as (now & s1 & t1 & t2 & H1 & H & ->). apply getTime_inv in H1.
  destruct H1 as (y & r0 & Ey & -> & -> & ->). rewrite Ey in HT. inversion HT as [|? ? E HT2]; subst.
  apply bind_inv in H. destruct H as (e & s2 & t3 & t4 & H1 & H & ->). apply gete_inv in H1. destruct H1 as (-> & -> & ->). cbn [app].
  cbn [sendb_loop] in H. destruct bs as [|b0 bs0]; [left; split; [reflexivity|]; cbn in H; now apply ret_inv in H|].
  right. split; [discriminate|]. set (bs := b0 :: bs0) in *. assert (Hz : 1 <= zlen bs) by (unfold zlen, bs; cbn [length]; lia).
  replace ((0 <? zlen bs) && (0 <=? 0)) with true in H by (symmetry; apply andb_true_intro; lia).
  apply bind_inv in H. destruct H as (sr & s1 & t1 & t2 & H1 & H & ->). apply tsend_inv in H1. destruct H1 as (k & ks & Ek & -> & H1).
  apply bind_inv in H. destruct H as (sent1 & s2 & t3 & t5 & H2 & H & ->).
  assert (Hx : sent1 = sr /\ t3 = [] /\ Forall (eq y) (e_times (s_env s2))).
  { destruct (0 <? sr) eqn:E3.
    - apply bind_inv in H2. destruct H2 as (u & s3 & t6 & t7 & H3 & H2 & ->). unfold massert in H3. destruct (sr <=? zlen bs - 0); [|discriminate]. apply ret_inv in H3. destruct H3 as (_ & -> & ->).
      apply bind_inv in H2. destruct H2 as (now & s4 & t7' & t8 & H3 & H2 & ->). apply getTime_inv in H3. destruct H3 as (y2 & r2 & Ey2 & -> & -> & ->).
      apply bind_inv in H2. destruct H2 as (u2 & s5 & t9 & t10 & H3 & H2 & ->). unfold modc in H3. injection H3 as <- <- <-. apply ret_inv in H2. destruct H2 as (-> & -> & ->).
      split; [lia|]. split; [reflexivity|]. cbn [s_env env_times env_sends e_times] in *. rewrite Ey2 in HT2. now inversion HT2.
    - destruct (sr <? 0) eqn:E4.
      + apply bind_inv in H2. destruct H2 as (u & s3 & t6 & t7 & H3 & H2 & ->). unfold modc in H3. injection H3 as <- <- <-. apply ret_inv in H2. destruct H2 as (-> & -> & ->).
        split; [lia|]. split; [reflexivity|]. exact HT2.
      + apply ret_inv in H2. destruct H2 as (-> & -> & ->). split; [lia|]. split; [reflexivity|exact HT2]. }
  destruct Hx as (-> & -> & HT3). apply bind_inv in H. destruct H as (now & s3 & t6 & t7 & H3 & H & ->). apply getTime_inv in H3.
  destruct H3 as (y3 & r3 & Ey3 & -> & -> & ->). rewrite Ey3 in HT3. inversion HT3 as [|? ? Exy HT4]; subst.
  unfold elapsed in H. rewrite Z.sub_diag in H. change (u32 0) with 0 in H. replace (g_sendto G <=? 0) with true in H by lia. apply ret_inv in H. destruct H as (-> & -> & ->).
  destruct H1 as [(H1 & -> & ->)|(H1 & -> & ->)]; (eexists; split; [reflexivity|]); [split; [reflexivity|lia]|split; [reflexivity|lia]].
Qed.
