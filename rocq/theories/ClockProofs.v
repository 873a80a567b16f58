(** Time taken by the calls. *)
From Verif Require Import Base StateModel SerModel CoreModel CoreTime CoreProofs CoreProofs25 ClockSpec.

Lemma skipped_app a b : skipped (a ++ b) = skipped a + skipped b.
Proof. induction a as [|e a IH]; [reflexivity|]. cbn [app]. unfold skipped in *. cbn [fold_right]. destruct e; rewrite ?IH; lia. Qed.

Section Clock.
Variable G : cfg.
Variable D B N K : Z.
Hypothesis HC : pace_suits G D.
Hypothesis HB : 1 <= B.
Hypothesis HM : largest < g_M G /\ B < g_M G.
Hypothesis HK : 0 <= K.
(** what a skipped byte is charged: 0 is enough where nothing is skipped *)
Variable W : Z.
Hypothesis HW : 0 <= W.
Notation SEND := (send_ms G D).
Notation READ := (read_ms G D).
Notation SKIP := (skip_ms G D).
Notation ctx_ok := (ctx_ok B N).

(** the readings before these are known, and t0 is the last of them *)
Variable before : list Z.
Variable start : Z.
Definition clock (t0 : Z) (l : list Z) : Prop := (exists used, before = used ++ l /\ last used start = t0) /\ paced D t0 l.
Lemma clock_step t0 x r : clock t0 (x :: r) -> t0 <= x <= t0 + D /\ clock x r.
Proof. intros ((used & Eb & E) & L & P). split; [exact L|]. split; [|exact P]. exists (used ++ [x]). rewrite <- app_assoc. split; [exact Eb|]. apply last_last. Qed.
Definition In (t0 : Z) (s : st) : Prop :=
  clock t0 (e_times (s_env s)) /\ Forall (fun l => ops_msgs l <= K) (e_cbs (s_env s)) /\ zlen (x_buf (s_ctx s)) = B /\ ctx_ok (s_ctx s).
(** the last reading, and what was skipped *)
Definition Done {A} (t0 : Z) (m : res A) (Q : A -> Prop) (b : Z) : Prop :=
  match m with Ret a s' t => Q a /\ 0 <= skipped t /\ exists t1, t0 <= t1 <= t0 + b + W * skipped t /\ In t1 s' | _ => True end.
Definition Tm {A} (m : Mo A) (Q : A -> Prop) (b : Z) : Prop := forall t0 s, In t0 s -> Done t0 (m s) Q b.
Definition any {A} (_ : A) : Prop := True.

Lemma D0 : 0 <= D. Proof. apply HC. Qed.
Lemma S0 : 0 <= SEND. Proof. destruct HC as (? & ? & ? & _). unfold send_ms. lia. Qed.
Lemma P0 : 0 <= SKIP. Proof. destruct HC as (? & ? & ? & _). unfold skip_ms. lia. Qed.
Ltac facts := pose proof D0; pose proof S0; pose proof P0.

Lemma Done_bind {A C} (m : Mo A) (f : A -> Mo C) Q Q2 t0 s b1 b :
  Done t0 (m s) Q b1 -> (forall a s' t t1, m s = Ret a s' t -> In t1 s' -> Q a -> 0 <= skipped t -> t0 <= t1 <= t0 + b1 + W * skipped t -> Done t1 (f a s') Q2 (t0 + b + W * skipped t - t1)) ->
  Done t0 (bind m f s) Q2 b.
Proof.
  intros H K1. unfold bind. destruct (m s) as [a s1 u| |] eqn:E; auto. destruct H as (Qa & Z1 & t1 & L1 & I1).
  specialize (K1 a s1 u t1 eq_refl I1 Qa Z1 L1). destruct (f a s1) as [c s2 v| |]; auto. destruct K1 as (Q2a & Z2 & t2 & L2 & I2).
  split; auto. rewrite skipped_app. split; [lia|]. exists t2. split; [|exact I2]. lia.
Qed.
Lemma Done_le {A} t0 t0' (m : res A) (Q Q2 : A -> Prop) b b' : Done t0 m Q b -> (forall a, Q a -> Q2 a) -> t0' <= t0 -> t0 + b <= t0' + b' -> Done t0' m Q2 b'.
Proof. unfold Done. destruct m; auto. intros (H1 & H2 & t1 & H3 & H4) HQ L1 L2. split; auto. split; auto. exists t1. split; [lia|exact H4]. Qed.
Lemma Tm_bind {A C} (m : Mo A) (f : A -> Mo C) Q Q2 t1 bt : Tm m Q t1 -> t1 <= bt -> (forall a, Q a -> Tm (f a) Q2 (bt - t1)) -> Tm (bind m f) Q2 bt.
Proof. intros H L K1 t0 s HI. eapply Done_bind; [apply H; auto|]. intros a s' t x _ I1 Qa _ Lx. eapply Done_le; [apply (K1 a Qa x s' I1)|auto|lia|lia]. Qed.
Lemma Tm_weak {A} (m : Mo A) (Q Q2 : A -> Prop) b b' : Tm m Q b -> (forall a, Q a -> Q2 a) -> b <= b' -> Tm m Q2 b'.
Proof. intros H HQ L t0 s HI. eapply Done_le; [apply H; exact HI|auto|lia|lia]. Qed.
Lemma Tm_le {A} (m : Mo A) b b' : Tm m any b -> b <= b' -> Tm m any b'.
Proof. intros. eapply Tm_weak; eauto. Qed.
Lemma Tm_ret {A} (a : A) (Q : A -> Prop) b : Q a -> 0 <= b -> Tm (ret a) Q b.
Proof. intros Qa L t0 s HI. split; auto. split; [cbn; lia|]. exists t0. split; [cbn [skipped fold_right]; lia|exact HI]. Qed.
Lemma Tm_undef {A} (Q : A -> Prop) b : Tm undef Q b.
Proof. intros t0 s _. exact I. Qed.
Lemma Tm_stuck {A} (Q : A -> Prop) b : Tm stuck Q b.
Proof. intros t0 s _. exact I. Qed.
Lemma Tm_massert b : Tm (massert b) (fun _ => b = true) 0.
Proof. unfold massert. destruct b; [apply Tm_ret; auto; lia|apply Tm_undef]. Qed.
Lemma Tm_lift {A} (r : R A) (Q : A -> Prop) : (forall a, r = Ok a -> Q a) -> Tm (lift r) Q 0.
Proof. intros H t0 s HI. unfold lift. destruct r as [a|]; [|exact I]. apply (Tm_ret a Q); auto. lia. Qed.
(** steps that keep the clock *)
Lemma Done_same {A} t0 (a : A) s t (Q : A -> Prop) : Q a -> skipped t = 0 -> In t0 s -> Done t0 (Ret a s t) Q 0.
Proof. intros Qa E HI. split; auto. split; [lia|]. exists t0. rewrite E. split; [lia|exact HI]. Qed.
Lemma Tm_getc : Tm getc (fun c => zlen (x_buf c) = B /\ ctx_ok c) 0.
Proof. intros t0 s HI. apply Done_same; [apply HI|reflexivity|exact HI]. Qed.
Lemma Tm_modc f : (forall c, zlen (x_buf c) = B -> ctx_ok c -> zlen (x_buf (f c)) = B /\ ctx_ok (f c)) -> Tm (modc f) any 0.
Proof. intros H t0 s (I1 & I2 & I3 & I4). apply Done_same; [exact I|reflexivity|]. split; [exact I1|]. split; [exact I2|]. apply H; auto. Qed.
Lemma Tm_emit e : skipped [e] = 0 -> Tm (emit e) any 0.
Proof. intros E t0 s HI. apply Done_same; [exact I|exact E|exact HI]. Qed.
Lemma Tm_onrecs {A} (f : recs -> R (A * recs)) : (forall c a c', f c = Ok (a, c') -> slots c' = slots c) -> Tm (on_recs f) any 0.
Proof.
  intros H t0 s (I1 & I2 & I3 & I4). unfold on_recs. destruct (f _) as [(a, r)|] eqn:E; [|exact I]. apply Done_same; [exact I|reflexivity|].
  split; [exact I1|]. split; [exact I2|]. split; [exact I3|]. unfold CoreProofs25.ctx_ok in *. cbn [s_ctx set_recs x_recs x_index]. apply H in E. split; [lia|apply I4].
Qed.
Lemma Tm_gete {A} (f : env -> Mo A) Q b : (forall e, Tm (f e) Q b) -> Tm (bind gete f) Q b.
Proof. intros H t0 s HI. unfold bind, gete. specialize (H (s_env s) t0 s HI). destruct (f (s_env s) s); auto. Qed.
Lemma Tm_tsend bs : Tm (tsend bs) any 0.
Proof.
  intros t0 s (I1 & I2 & I3 & I4). unfold tsend. destruct (e_sends (s_env s)) as [|n r]; [exact I|].
  destruct (n <? 0); (apply Done_same; [exact I|reflexivity|]); (split; [exact I1|]; split; [exact I2|]; split; [exact I3|exact I4]).
Qed.
Lemma Tm_trecv n : 0 <= n -> Tm (trecv n) (fun r => zlen (snd r) <= n /\ (fst r < 0 /\ snd r = [] \/ fst r = zlen (snd r))) 0.
Proof.
  intros Hn t0 s (I1 & I2 & I3 & I4). unfold trecv. destruct (e_recvs (s_env s)) as [|a r]; [exact I|].
  destruct (a <? 0) eqn:Ea; (apply Done_same; [|reflexivity|split; [exact I1|]; split; [exact I2|]; split; [exact I3|exact I4]]); cbn [fst snd].
  - split; [unfold zlen; cbn; lia|left; split; [lia|reflexivity]].
  - split; [unfold zlen; rewrite firstn_length; lia|right; reflexivity].
Qed.
Ltac tmb L := eapply Tm_bind; [L|first [lia|nia]|].
Lemma Tm_recv_into off n : Tm (recv_into off n) (fun r => r <= n) 0.
Proof.
  unfold recv_into. tmb ltac:(apply Tm_getc). intros c (Hc & _). tmb ltac:(apply Tm_massert). intros u Hm. cbv beta in Hm. clear u.
  tmb ltac:(apply Tm_trecv; lia). intros (r, bs) (H1 & H2). cbn [fst snd] in *. tmb ltac:(apply Tm_modc).
  - intros c' E1 E2. cbn [set_buf x_buf x_recs]. split; auto. rewrite store_at_len; lia.
  - intros _ _. apply Tm_ret; lia.
Qed.
(** a reading, with what it is *)
Lemma time_inv {A} (f : Z -> Mo A) Q t0 s b : In t0 s -> (forall x s1, t0 <= x <= t0 + D -> In x s1 -> s_ctx s1 = s_ctx s -> Done x (f (u32 x) s1) Q (t0 + b - x)) -> Done t0 (bind getTime f s) Q b.
Proof.
  intros (I1 & I2 & I3 & I4) H. unfold bind, getTime. destruct (e_times (s_env s)) as [|x r]; [exact I|]. destruct (clock_step _ _ _ I1) as (T1 & T2).
  specialize (H x (mkSt (s_ctx s) (env_times (s_env s) r)) T1 (conj T2 (conj I2 (conj I3 I4))) eq_refl). cbn [app].
  destruct (f _ _) as [a s2 v| |]; auto. destruct H as (Qa & Z1 & t1 & L1 & J). split; auto. split; auto. exists t1. split; [lia|exact J].
Qed.
Lemma Tm_time : Tm getTime any D.
Proof.
  facts. intros t0 s (I1 & I2 & I3 & I4). unfold getTime. destruct (e_times (s_env s)) as [|x r]; [exact I|]. destruct (clock_step _ _ _ I1) as (T1 & T2).
  split; [exact I|]. split; [cbn; lia|]. exists x. split; [cbn [skipped fold_right]; lia|]. exact (conj T2 (conj I2 (conj I3 I4))).
Qed.
Lemma broke_frame c : zlen (x_buf c) = B -> ctx_ok c -> zlen (x_buf (transport_broke c)) = B /\ ctx_ok (transport_broke c).
Proof. unfold transport_broke. destruct (cstatus_beq _ _); auto. Qed.
Ltac same := let a := fresh in let b := fresh in intros ? a b; split; [exact a|exact b].

(** ** Sending *)
Lemma Tm_round r b n : Tm (round r b n) any D.
Proof.
  facts. unfold round. destruct (0 <? r).
  - tmb ltac:(apply Tm_massert). intros _ _. tmb ltac:(apply Tm_time). intros t _. tmb ltac:(apply Tm_modc; same). intros _ _. apply Tm_ret; [exact I|lia].
  - destruct (r <? 0); [|apply Tm_ret; [exact I|lia]]. tmb ltac:(apply Tm_modc; apply broke_frame). intros _ _. apply Tm_ret; [exact I|lia].
Qed.
Lemma Done_sendv ts fuel : forall vs b sent t0 s, In t0 s -> ts <= t0 <= ts + g_sendto G -> Done t0 (sendv_loop G fuel vs b (u32 ts) sent s) any (ts + g_sendto G + 2 * D - t0).
Proof.
  facts. pose proof HC as (C1 & C2 & C3 & C4 & C5). induction fuel as [|f IH]; intros vs b sent t0 s HI HL; [exact I|]. cbn [sendv_loop].
  destruct (_ && _); [|apply Tm_ret; [exact I|lia|exact HI]].
  eapply Done_bind with (Q := any) (b1 := 0); [destruct vs; [exact I|apply Tm_tsend; exact HI]|]. intros r s1 u1 t1 E1 I1 _ Z1 L1.
  assert (Z2 : skipped u1 = 0). { destruct vs; [discriminate|]. unfold tsend in E1. destruct (e_sends _); [discriminate|]. destruct (_ <? 0); injection E1 as _ _ <-; reflexivity. }
  rewrite Z2 in *. eapply Done_bind; [apply (Tm_round r b sent); exact I1|]. intros k s2 u2 t2 E2 I2 _ Z3 L2.
  assert (Z4 : skipped u2 = 0). { revert E2. unfold round, bind, massert, getTime, modc, ret. destruct (0 <? r); [destruct (r <=? _); [|discriminate]; cbn; destruct (e_times _); [discriminate|]; intro E; now injection E as _ _ <-|destruct (r <? 0); intro E; now injection E as _ _ <-]. }
  rewrite Z4 in *. apply time_inv; [exact I2|]. intros x s3 Lx I3 _. rewrite elapsed_plain by lia.
  destruct (g_sendto G <? x - ts) eqn:E; [apply Tm_ret; [exact I|lia|exact I3]|]. eapply Done_le; [apply IH; [exact I3|lia]|auto|lia|lia].
Qed.
Lemma Done_sendb ts fuel : forall bs b sent t0 s, In t0 s -> ts <= t0 <= ts + g_sendto G -> Done t0 (sendb_loop G fuel bs b (u32 ts) sent s) any (ts + g_sendto G + 2 * D - t0).
Proof.
  facts. pose proof HC as (C1 & C2 & C3 & C4 & C5). induction fuel as [|f IH]; intros bs b sent t0 s HI HL; [exact I|]. cbn [sendb_loop].
  destruct (_ && _); [|apply Tm_ret; [exact I|lia|exact HI]].
  eapply Done_bind; [apply (Tm_tsend bs); exact HI|]. intros r s1 u1 t1 E1 I1 _ Z1 L1.
  assert (Z2 : skipped u1 = 0). { unfold tsend in E1. destruct (e_sends _); [discriminate|]. destruct (_ <? 0); injection E1 as _ _ <-; reflexivity. }
  rewrite Z2 in *. eapply Done_bind; [apply (Tm_round r b sent); exact I1|]. intros k s2 u2 t2 E2 I2 _ Z3 L2.
  assert (Z4 : skipped u2 = 0). { revert E2. unfold round, bind, massert, getTime, modc, ret. destruct (0 <? r); [destruct (r <=? _); [|discriminate]; cbn; destruct (e_times _); [discriminate|]; intro E; now injection E as _ _ <-|destruct (r <? 0); intro E; now injection E as _ _ <-]. }
  rewrite Z4 in *. apply time_inv; [exact I2|]. intros x s3 Lx I3 _. rewrite elapsed_plain by lia.
  destruct (g_sendto G <=? x - ts) eqn:E; [apply Tm_ret; [exact I|lia|exact I3]|]. eapply Done_le; [apply IH; [exact I3|lia]|auto|lia|lia].
Qed.
Lemma Tm_sendv vs : Tm (sendMessageVector G vs) any SEND.
Proof.
  pose proof HC as (C1 & C2 & C3 & C4 & C5). intros t0 s HI. unfold sendMessageVector. apply time_inv; [exact HI|]. intros x s1 Lx I1 _.
  unfold bind, gete. pose proof (Done_sendv x (S (length (e_sends (s_env s1)))) vs (zlen (concat vs)) 0 x s1 I1 ltac:(lia)) as H.
  destruct (sendv_loop _ _ _ _ _ _ _) as [a s2 u| |]; try exact I. cbn [app]. eapply Done_le with (m := Ret a s2 u); [exact H|auto|lia|unfold send_ms; lia].
Qed.
Lemma Tm_sendb bs : Tm (sendBuffer G bs) any SEND.
Proof.
  pose proof HC as (C1 & C2 & C3 & C4 & C5). intros t0 s HI. unfold sendBuffer. apply time_inv; [exact HI|]. intros x s1 Lx I1 _.
  unfold bind, gete. pose proof (Done_sendb x (S (length (e_sends (s_env s1)))) bs (zlen bs) 0 x s1 I1 ltac:(lia)) as H.
  destruct (sendb_loop _ _ _ _ _ _ _) as [a s2 u| |]; try exact I. cbn [app]. eapply Done_le with (m := Ret a s2 u); [exact H|auto|lia|unfold send_ms; lia].
Qed.

(** ** Reading and skipping *)
Lemma recv_into_skips off n s r s' t : recv_into off n s = Ret r s' t -> skipped t = 0.
Proof.
  unfold recv_into. unfold bind at 1. unfold getc. unfold massert. destruct (_ && _ && _); [|discriminate].
  unfold bind at 1. cbn [ret]. unfold bind at 1. unfold trecv. destruct (e_recvs (s_env s)) as [|a r0]; [discriminate|].
  destruct (a <? 0); unfold bind, modc, ret; intro H; injection H as _ _ <-; reflexivity.
Qed.
Lemma Done_exact fuel : forall off n k lr t0 s, In t0 s -> 0 <= n -> lr <= t0 <= lr + g_poll G ->
  Done t0 (recvExact_loop G fuel off n k (u32 lr) s) any (lr + (n + 1) * (g_poll G + D) - t0).
Proof.
  facts. pose proof HC as (C1 & C2 & C3 & C4 & C5). induction fuel as [|f IH]; intros off n k lr t0 s HI Hn HL; [exact I|]. cbn [recvExact_loop].
  destruct (0 <? n) eqn:En; [|apply Tm_ret; [exact I|nia|exact HI]].
  eapply Done_bind; [apply Tm_recv_into; exact HI|]. cbv beta. intros r s1 u1 t1 E1 I1 Hr Z1 L1. apply recv_into_skips in E1. rewrite E1 in *.
  destruct (r <? 0); [eapply Tm_bind with (t1 := 0); [apply Tm_modc; apply broke_frame|nia| |exact I1]; intros _ _; apply Tm_ret; [exact I|nia]|].
  destruct (0 <? r) eqn:Er; apply time_inv; [exact I1| |exact I1|]; intros x s2 Lx I2 _.
  - unfold bind, massert. destruct (r <=? n); [|exact I]. cbn [ret app].
    pose proof (IH (off + r) (n - r) (k + r) x x s2 I2 ltac:(lia) ltac:(lia)) as H2. destruct (recvExact_loop _ _ _ _ _ _ _) as [a s3 u| |]; try exact I. cbn [app].
    eapply Done_le with (m := Ret a s3 u); [exact H2|auto|lia|nia].
  - rewrite elapsed_plain by lia. destruct (g_poll G <=? x - lr) eqn:E; [apply Tm_ret; [exact I|nia|exact I2]|].
    eapply Done_le; [apply (IH off n k lr x s2 I2); lia|auto|lia|lia].
Qed.
Lemma Tm_recvExact n : 0 <= n -> Tm (recvExact G n) any (READ n).
Proof.
  facts. pose proof HC as (C1 & C2 & C3 & C4 & C5). intros Hn. assert (R0 : 0 <= READ n) by (unfold read_ms; nia).
  unfold recvExact. tmb ltac:(apply Tm_getc). intros c _. tmb ltac:(apply Tm_massert). intros _ _.
  intros t0 s HI. apply time_inv; [exact HI|]. intros x s1 Lx I1 _.
  unfold bind, gete. pose proof (Done_exact (S (length (e_recvs (s_env s1)))) 0 n 0 x x s1 I1 Hn ltac:(lia)) as H2.
  destruct (recvExact_loop _ _ _ _ _ _ _) as [a s2 u| |]; try exact I. cbn [app]. eapply Done_le with (m := Ret a s2 u); [exact H2|auto|lia|unfold read_ms; lia].
Qed.
Lemma READ_mono n m : 0 <= n <= m -> 0 <= READ n <= READ m.
Proof. pose proof HC as (C1 & C2 & C3 & C4 & C5). intros. unfold read_ms. nia. Qed.
Lemma Tm_discardStored fuel : forall btr rem total, 0 <= total <= rem -> rem <= largest -> 1 <= btr ->
  Tm (discardStored_loop G fuel btr rem total) any ((rem - total) * SKIP).
Proof.
  facts. induction fuel as [|fuel IH]; intros btr rem total Ht Hl Hb; [apply Tm_stuck|]. cbn [discardStored_loop].
  destruct (total <? rem) eqn:E; [|apply Tm_ret; [exact I|nia]].
  set (n := if rem - total <? btr then rem - total else btr). assert (Hn : 1 <= n <= rem - total) by (unfold n; destruct (rem - total <? btr) eqn:E2; lia).
  assert (HR : READ n <= n * SKIP) by (pose proof HC as (C1 & C2 & C3 & C4 & C5); unfold read_ms, skip_ms; nia).
  tmb ltac:(apply (Tm_recvExact n); lia). intros r _. cbv beta. destruct (r =? n) eqn:Er; cbn [negb]; [|apply Tm_ret; [exact I|nia]].
  assert (r = n) as -> by lia. unfold largest in Hl. replace (u32 (total + n)) with (total + n) by (unfold u32; rewrite Z.mod_small; lia).
  eapply Tm_le; [apply IH|]; unfold largest; try lia; nia.
Qed.
(** its time is booked on the event *)
Lemma Tm_discardStoredPacket type rem hdr : SKIP <= W -> 0 <= rem <= 268435455 -> 0 <= hdr <= 5 -> Tm (discardStoredPacket G type rem hdr) any 0.
Proof.
  facts. intros HS Hr Hh. destruct HM as (HM1 & HM2). intros t0 s HI. unfold discardStoredPacket. unfold bind at 1. unfold emit at 1.
  match goal with |- Done _ (match ?m with _ => _ end) _ _ => assert (H2 : Done t0 m any (SKIP * (rem + 5))) end.
  { revert t0 s HI. apply (fun H => H : Tm _ any (SKIP * (rem + 5))). tmb ltac:(apply Tm_getc). intros c (Hc1 & Hc2 & Hc3). cbv zeta.
    tmb ltac:(apply Tm_massert). intros u Hu. cbv beta in Hu. clear u. unfold largest in *.
    rewrite (Z.mod_small (rem + hdr - x_index c)) by lia. set (n := rem + hdr - x_index c). assert (Hn : 0 <= n <= rem + 5) by (unfold n; lia).
    apply Tm_gete. intros e. tmb ltac:(apply Tm_discardStored with (total := 0); unfold largest; lia). intros total _.
    tmb ltac:(apply Tm_modc).
    { intros c' E1 (E2 & E3). unfold CoreProofs25.ctx_ok. cbn [set_index set_buf x_buf x_recs x_index]. unfold zlen in *. rewrite repeat_length. split; [exact E1|]. split; [exact E2|lia]. }
    intros _ _. apply Tm_ret; [exact I|nia]. }
  match goal with |- Done _ (match ?m with _ => _ end) _ _ => destruct m as [a s2 u| |]; try exact I end. destruct H2 as (_ & Z1 & t1 & L1 & I1).
  split; [exact I|]. unfold skipped in *. cbn [app fold_right]. split; [lia|]. exists t1. split; [nia|exact I1].
Qed.
Lemma exact_skips fuel : forall off n k lr s r s' t, recvExact_loop G fuel off n k lr s = Ret r s' t -> skipped t = 0.
Proof.
  induction fuel as [|f IH]; intros off n k lr s r s' t H; [discriminate|]. cbn [recvExact_loop] in H. destruct (0 <? n); [|now injection H as _ _ <-].
  unfold bind at 1 in H. destruct (recv_into off n s) as [r1 s1 u1| |] eqn:E1; try discriminate. apply recv_into_skips in E1.
  destruct (r1 <? 0); [injection H as _ _ <-; rewrite app_nil_r; exact E1|].
  destruct (0 <? r1); unfold bind, massert, getTime in H; (destruct (e_times (s_env s1)); [discriminate|]).
  - destruct (r1 <=? n); [|discriminate]. cbn [ret app] in H. destruct (recvExact_loop _ _ _ _ _ _ _) as [a s3 u| |] eqn:E3; try discriminate. apply IH in E3.
    injection H as _ _ <-. rewrite !skipped_app. lia.
  - destruct (g_poll G <=? _); [injection H as _ _ <-; rewrite app_nil_r; exact E1|]. destruct (recvExact_loop _ _ _ _ _ _ _) as [a s3 u| |] eqn:E3; try discriminate. apply IH in E3.
    injection H as _ _ <-. rewrite !skipped_app. lia.
Qed.
Lemma recvExact_skips n s r s' t : recvExact G n s = Ret r s' t -> skipped t = 0.
Proof.
  unfold recvExact, bind, getc, massert, getTime, gete. destruct (n <=? _); [|discriminate]. cbn [ret app]. destruct (e_times (s_env s)); [discriminate|].
  destruct (recvExact_loop _ _ _ _ _ _ _) as [a s3 u| |] eqn:E3; try discriminate. apply exact_skips in E3. intro H. now injection H as _ _ <-.
Qed.
(** discardPacket: it gives up after the chunk in which the timeout ends *)
Lemma Done_discard tmo te fuel : forall btr rem total t0 s, In t0 s -> 0 <= tmo -> tmo + READ B + D < 4294967296 -> te <= t0 <= te + tmo -> 0 <= btr <= B -> 0 <= total ->
  Done t0 (discard_loop G fuel btr rem total tmo (u32 te) s) any (te + tmo + READ B + D - t0).
Proof.
  facts. induction fuel as [|fuel IH]; intros btr rem total t0 s HI T0 T1 L0 Hb Ht; [exact I|]. cbn [discard_loop]. pose proof (READ_mono 0 B ltac:(lia)).
  destruct (total <? rem) eqn:E; [|apply Tm_ret; [exact I|lia|exact HI]].
  set (n := if rem - total <? btr then rem - total else btr). assert (Hn : 0 <= n <= B) by (unfold n; destruct (rem - total <? btr) eqn:E2; lia). pose proof (READ_mono n B Hn).
  eapply Done_bind; [apply (Tm_recvExact n); [lia|exact HI]|]. intros r s1 u1 t1 E1 I1 _ _ L1. apply recvExact_skips in E1. rewrite E1 in *.
  destruct (negb _); [apply Tm_ret; [exact I|lia|exact I1]|]. cbv zeta. apply time_inv; [exact I1|]. intros x s2 Lx I2 _. rewrite elapsed_plain by lia.
  destruct (tmo <=? x - te) eqn:E2; [apply Tm_ret; [exact I|lia|exact I2]|].
  eapply Done_le; [apply (IH n rem (u32 (total + r)) x s2 I2)|auto|..]; try lia. apply Z.mod_pos_bound. lia.
Qed.
Lemma Tm_receivePacket rem tmo : 0 <= rem -> 0 <= tmo -> tmo + READ B + D < 4294967296 -> Tm (receivePacket G rem tmo) any (tmo + READ B + 2 * D).
Proof.
  facts. intros Hr T0 T1. unfold receivePacket. pose proof (READ_mono 0 B ltac:(lia)).
  tmb ltac:(apply Tm_getc). intros c (Hc1 & Hc2 & Hc3). destruct (zlen (x_buf c) <? rem) eqn:E.
  - unfold discardPacket. tmb ltac:(apply Tm_getc). intros c2 (Hd1 & Hd2 & Hd3). intros t0 s HI. apply time_inv; [exact HI|]. intros x s1 Lx I1 _.
    unfold bind at 1. unfold gete. 
    match goal with |- Done _ (match ?m with _ => _ end) _ ?b => assert (HD : Done x m any b) end.
    { eapply Done_bind with (Q := any); [apply (Done_discard tmo x); [exact I1|lia..]|]. intros total s2 u2 t2 E2 I2 _ Z2 L2. apply Tm_ret; [exact I|lia|exact I2]. }
    match goal with |- Done _ (match ?m with _ => _ end) _ ?b => destruct m; exact HD end.
  - pose proof (READ_mono rem B ltac:(lia)). tmb ltac:(apply Tm_recvExact; lia). intros r _. apply Tm_ret; [exact I|lia].
Qed.

(** ** Acknowledgements, API calls *)
Lemma Tm_store id vs : Tm (store_publish id vs) any 0.
Proof. intros t0 s (I1 & I2 & I3 & I4). unfold store_publish. apply Done_same; [exact I|reflexivity|]. split; [exact I1|]. split; [exact I2|]. split; [exact I3|exact I4]. Qed.
Lemma Tm_acks id ps : Tm (sendPublishAcks G id ps) any SEND.
Proof.
  facts. unfold sendPublishAcks. destruct (ackToSend ps) as [(ty, pt)|]; [|apply Tm_ret; [exact I|..]; lia].
  tmb ltac:(apply Tm_lift with (Q := any); intros; exact I). intros (st, buf) _.
  apply Tm_bind with (Q := any) (t1 := SEND); [|lia|].
  - destruct (status_beq st Success); [|apply Tm_ret; [exact I|..]; lia].
    tmb ltac:(apply Tm_getc). intros c _. destruct (status_beq _ _); [|apply Tm_ret; [exact I|..]; lia].
    tmb ltac:(apply Tm_sendb). intros r _. apply Tm_ret; [exact I|..]; lia.
  - intros st2 _. destruct (status_beq st2 Success); [|apply Tm_ret; [exact I|..]; lia].
    tmb ltac:(apply Tm_modc; intros c' E1 E2; split; [exact E1|exact E2]). intros _ _.
    tmb ltac:(apply Tm_onrecs; intros; eapply ackApi_slots; eauto). intros (st3, ns) _. apply Tm_ret; [exact I|..]; lia.
Qed.
Lemma Tm_ping : Tm (ping G) any SEND.
Proof.
  facts. unfold ping. tmb ltac:(apply Tm_lift with (Q := any); intros; exact I). intros (st, buf) _.
  destruct (status_beq st Success); [|apply Tm_ret; [exact I|..]; lia].
  tmb ltac:(apply Tm_getc). intros c _. destruct (status_beq _ _); [|apply Tm_ret; [exact I|..]; lia].
  tmb ltac:(apply Tm_sendb). intros r _. destruct (r <? 2); [apply Tm_ret; [exact I|..]; lia|].
  tmb ltac:(apply Tm_modc; intros c' E1 E2; split; [exact E1|exact E2]). intros _ _. apply Tm_ret; [exact I|..]; lia.
Qed.
Lemma Tm_disconnect : Tm (disconnect G) any SEND.
Proof.
  facts. unfold disconnect. tmb ltac:(apply Tm_lift with (Q := any); intros; exact I). intros (st, buf) _.
  destruct (status_beq st Success); [|apply Tm_ret; [exact I|..]; lia].
  tmb ltac:(apply Tm_getc). intros c _. destruct (cstatus_beq _ _); [apply Tm_ret; [exact I|..]; lia|].
  tmb ltac:(apply Tm_modc).
  { intros c' E1 (E2 & E3). unfold CoreProofs25.ctx_ok. cbn [set_index set_buf set_status x_buf x_recs x_index]. unfold zlen in *. rewrite repeat_length. split; [exact E1|]. split; [exact E2|lia]. }
  intros _ _. tmb ltac:(apply Tm_sendb). intros r _. apply Tm_ret; [exact I|..]; lia.
Qed.
Lemma Tm_validate subs n id : Tm (validateSubUnsub subs n id) any 0.
Proof.
  unfold validateSubUnsub. destruct subs; [|apply Tm_ret; [exact I|..]; lia]. destruct (n =? 0); [apply Tm_ret; [exact I|..]; lia|].
  destruct (id =? 0); [apply Tm_ret; [exact I|..]; lia|]. tmb ltac:(apply Tm_getc). intros c _. destruct (inRecs _); [apply Tm_ret; [exact I|..]; lia|].
  tmb ltac:(apply Tm_lift with (Q := any); intros; exact I). intros l2 _. apply Tm_ret; [exact I|..]; lia.
Qed.
Lemma Tm_sub_loop fuel : forall l vs k, 3 <= g_maxvec G -> k = zlen l + (match vs with [] => 0 | _ => 1 end) -> k < Z.of_nat fuel ->
  Tm (sub_send_loop G fuel l vs) any (k * SEND).
Proof.
  facts. induction fuel as [|fuel IH]; intros l vs k Hm Hk Hf; [unfold zlen in Hk; destruct vs; lia|]. cbn [sub_send_loop].
  destruct l as [|x l]; [apply Tm_ret; [exact I|..]; unfold zlen in Hk; cbn [length] in Hk; destruct vs; nia|].
  assert (Hk1 : 1 <= k) by (unfold zlen in Hk; cbn [length] in Hk; destruct vs; lia).
  tmb ltac:(apply Tm_lift with (Q := fun r => fill_sub G (x :: l) vs = Ok r); auto). intros (vs', l') E.
  tmb ltac:(apply Tm_sendv). intros r _. destruct (negb _); [apply Tm_ret; [exact I|..]; nia|].
  apply fill_sub_len in E. destruct E as (E1 & E2). assert (Hl : zlen l' + 1 <= k).
  { destruct vs as [|v vs]; [specialize (E2 ltac:(unfold zlen; cbn [length]; lia) ltac:(congruence))|]; unfold zlen in *; cbn [length] in *; lia. }
  eapply Tm_le; [apply (IH l' [] (zlen l')); try lia|..]; nia.
Qed.
Lemma Tm_unsub_loop fuel : forall l vs k, 2 <= g_maxvec G -> k = zlen l + (match vs with [] => 0 | _ => 1 end) -> k < Z.of_nat fuel ->
  Tm (unsub_send_loop G fuel l vs) any (k * SEND).
Proof.
  facts. induction fuel as [|fuel IH]; intros l vs k Hm Hk Hf; [unfold zlen in Hk; destruct vs; lia|]. cbn [unsub_send_loop].
  destruct l as [|x l]; [apply Tm_ret; [exact I|..]; unfold zlen in Hk; cbn [length] in Hk; destruct vs; nia|].
  assert (Hk1 : 1 <= k) by (unfold zlen in Hk; cbn [length] in Hk; destruct vs; lia).
  tmb ltac:(apply Tm_lift with (Q := fun r => fill_unsub G (x :: l) vs = Ok r); auto). intros (vs', l') E.
  tmb ltac:(apply Tm_sendv). intros r _. destruct (negb _); [apply Tm_ret; [exact I|..]; nia|].
  apply fill_unsub_len in E. destruct E as (E1 & E2). assert (Hl : zlen l' + 1 <= k).
  { destruct vs as [|v vs]; [specialize (E2 ltac:(unfold zlen; cbn [length]; lia) ltac:(congruence))|]; unfold zlen in *; cbn [length] in *; lia. }
  eapply Tm_le; [apply (IH l' [] (zlen l')); try lia|..]; nia.
Qed.
Lemma Tm_subscribe subs n id : Tm (subscribe G subs n id) any ((Z.max 0 n + 1) * SEND).
Proof.
  facts. unfold subscribe. tmb ltac:(apply Tm_validate). intros st _. destruct (status_beq st Success); [|apply Tm_ret; [exact I|..]; nia].
  tmb ltac:(apply Tm_lift with (Q := any); intros; exact I). intros (st2, size) _.
  assert (HR : forall x : status, Tm (ret x) any ((Z.max 0 n + 1) * SEND - 0 - 0)) by (intro; apply Tm_ret; [exact I|..]; nia).
  destruct st2; auto. destruct size as [(rl, sz)|]; auto. destruct subs as [l|]; auto.
  tmb ltac:(apply Tm_getc). intros c _. destruct (status_beq _ _); [|apply Tm_ret; [exact I|..]; nia].
  tmb ltac:(apply Tm_lift with (Q := fun l' => sub_entries l n = Ok l'); auto). intros l' E. apply sub_entries_len in E.
  unfold sendSubscribeWithoutCopy. tmb ltac:(apply Tm_massert). intros u Hm. cbv beta in Hm. clear u.
  tmb ltac:(apply Tm_lift with (Q := any); intros; exact I). intros (h, k) _.
  eapply Tm_le; [apply Tm_sub_loop with (k := zlen l' + 1); [lia|reflexivity|unfold zlen; lia]|..]; nia.
Qed.
Lemma Tm_unsubscribe subs n id : Tm (unsubscribe G subs n id) any ((Z.max 0 n + 1) * SEND).
Proof.
  facts. unfold unsubscribe. tmb ltac:(apply Tm_validate). intros st _. destruct (status_beq st Success); [|apply Tm_ret; [exact I|..]; nia].
  tmb ltac:(apply Tm_lift with (Q := any); intros; exact I). intros (st2, size) _.
  assert (HR : forall x : status, Tm (ret x) any ((Z.max 0 n + 1) * SEND - 0 - 0)) by (intro; apply Tm_ret; [exact I|..]; nia).
  destruct st2; auto. destruct size as [(rl, sz)|]; auto. destruct subs as [l|]; auto.
  tmb ltac:(apply Tm_getc). intros c _. destruct (status_beq _ _); [|apply Tm_ret; [exact I|..]; nia].
  tmb ltac:(apply Tm_lift with (Q := fun l' => sub_entries l n = Ok l'); auto). intros l' E. apply sub_entries_len in E.
  unfold sendUnsubscribeWithoutCopy. tmb ltac:(apply Tm_massert). intros u Hm. cbv beta in Hm. clear u.
  tmb ltac:(apply Tm_lift with (Q := any); intros; exact I). intros (h, k) _.
  eapply Tm_le; [apply Tm_unsub_loop with (k := zlen l' + 1); [lia|reflexivity|unfold zlen; lia]|..]; nia.
Qed.
Lemma Tm_sendPublish p h hs id : Tm (sendPublishWithoutCopy G p h hs id) any SEND.
Proof.
  facts. unfold sendPublishWithoutCopy. tmb ltac:(apply Tm_getc). intros c _.
  apply Tm_bind with (Q := any) (t1 := 0); [|lia|].
  - destruct (_ && _); [|apply Tm_ret; [exact I|..]; lia].
    destruct (if negb (p_dup p) then _ else _) as ((st, b), ch). cbv zeta.
    apply Tm_bind with (Q := any) (t1 := 0); [|lia|].
    + destruct (status_beq st Success); [|apply Tm_ret; [exact I|..]; lia].
      tmb ltac:(apply Tm_lift with (Q := any); intros; exact I). intros vs _. tmb ltac:(apply Tm_store). intros ok _. apply Tm_ret; [exact I|..]; lia.
    + intros st2 _. destruct (_ && _); [|apply Tm_ret; [exact I|..]; lia]. destruct (updateDuplicatePublishFlag _ _). apply Tm_ret; [exact I|..]; lia.
  - intros (st, h2) _. destruct (status_beq st Success); [|apply Tm_ret; [exact I|..]; lia].
    tmb ltac:(apply Tm_lift with (Q := any); intros; exact I). intros vs _. tmb ltac:(apply Tm_sendv). intros r _. apply Tm_ret; [exact I|..]; lia.
Qed.
Lemma Tm_publish p id : Tm (publish G p id) any SEND.
Proof.
  facts. unfold publish. tmb ltac:(apply Tm_getc). intros c _. destruct (status_beq _ _); [|apply Tm_ret; [exact I|..]; lia].
  assert (HR : forall x : status, Tm (ret x) any (SEND - 0)) by (intro; apply Tm_ret; [exact I|..]; lia).
  destruct (getPublishPacketSize p) as (st, size). destruct st; auto. destruct size as [(rl, sz)|]; auto.
  tmb ltac:(apply Tm_lift with (Q := any); intros; exact I). intros (h, hs) _. destruct (status_beq _ _); [|apply Tm_ret; [exact I|..]; lia].
  apply Tm_bind with (Q := any) (t1 := 0); [|lia|].
  { destruct (negb _); [|apply Tm_ret; [exact I|..]; lia]. tmb ltac:(apply Tm_onrecs; intros; eapply reserve_slots; eauto). intros st _. apply Tm_ret; [exact I|..]; lia. }
  intros st _. apply Tm_bind with (Q := any) (t1 := SEND); [|lia|].
  { destruct (status_beq st Success); [apply Tm_sendPublish|apply Tm_ret; [exact I|..]; lia]. }
  intros st2 _. destruct (_ && _); [|apply Tm_ret; [exact I|..]; lia].
  tmb ltac:(apply Tm_onrecs; intros; eapply publishApi_slots; eauto). intros (st3, ns) _. apply Tm_ret; [exact I|..]; lia.
Qed.
Lemma Tm_op o : Tm (run_op G o) any (op_msgs o * SEND).
Proof.
  facts. destruct o as [p id|subs n id|subs n id| | | |id|]; cbn [run_op op_msgs].
  - eapply Tm_le; [apply Tm_publish|..]; lia.
  - apply Tm_subscribe.
  - apply Tm_unsubscribe.
  - eapply Tm_le; [apply Tm_ping|..]; lia.
  - eapply Tm_le; [apply Tm_disconnect|..]; lia.
  - unfold getPacketId. apply Tm_bind with (Q := any) (t1 := 0); [|lia|intros; apply Tm_ret; [exact I|..]; lia].
    tmb ltac:(apply Tm_getc). intros c _. tmb ltac:(apply Tm_modc; intros c' E1 E2; split; [exact E1|exact E2]). intros _ _.
    tmb ltac:(apply Tm_emit; reflexivity). intros _ _. apply Tm_ret; [exact I|..]; lia.
  - unfold cancel. tmb ltac:(apply Tm_getc). intros c _. destruct (outRecs _); [|apply Tm_ret; [exact I|..]; lia].
    eapply Tm_le; [apply Tm_onrecs; intros; eapply remove_slots; eauto|..]; lia.
  - unfold checkConnectStatus. tmb ltac:(apply Tm_getc). intros c _. apply Tm_ret; [exact I|..]; lia.
Qed.
Lemma op_msgs_pos o : 0 <= op_msgs o.
Proof. destruct o; cbn [op_msgs]; lia. Qed.
Lemma ops_msgs_pos l : 0 <= ops_msgs l.
Proof. induction l as [|o l IH]; cbn [ops_msgs fold_right]; [lia|]. pose proof (op_msgs_pos o). unfold ops_msgs in IH. lia. Qed.
Lemma Tm_ops l : Tm (run_ops G l) any (ops_msgs l * SEND).
Proof.
  facts. induction l as [|o l IH]; [apply Tm_ret; [exact I|..]; cbn; lia|]. cbn [run_ops]. pose proof (op_msgs_pos o). pose proof (ops_msgs_pos l).
  assert (E : ops_msgs (o :: l) = op_msgs o + ops_msgs l) by reflexivity. rewrite E.
  tmb ltac:(apply Tm_op). intros st _. eapply Tm_le; [apply IH|..]; lia.
Qed.

Lemma Tm_callback ty data id pub r : Tm (callback G ty data id pub r) any (K * SEND).
Proof.
  facts. unfold callback. tmb ltac:(apply Tm_emit; reflexivity). intros _ _. rewrite !Z.sub_0_r.
  intros t0 s (I1 & I2 & I3 & I4). unfold bind at 1. unfold gete. unfold bind at 1.
  set (l := match e_cbs (s_env s) with [] => [] | l :: _ => l end). assert (Hl : ops_msgs l <= K).
  { unfold l. destruct (e_cbs (s_env s)) as [|x r0]; [cbn; lia|]. now inversion I2. }
  set (s1 := mkSt (s_ctx s) (env_cbs (s_env s) (tl (e_cbs (s_env s))))).
  assert (J : In t0 s1).
  { split; [exact I1|]. split; [|split; [exact I3|exact I4]]. unfold s1. cbn [s_env env_cbs e_cbs]. destruct (e_cbs (s_env s)); [constructor|]. now inversion I2. }
  pose proof (Tm_le _ _ (K * SEND) (Tm_ops l) ltac:(nia) t0 s1 J) as HA.
  destruct (run_ops G l s1) as [a s2 u| |]; exact HA.
Qed.

(** ** Handling received packets *)
Lemma Tm_keepAlive : Tm (handleKeepAlive G) any (SEND + D).
Proof.
  facts. unfold handleKeepAlive. tmb ltac:(apply Tm_time). intros now _. tmb ltac:(apply Tm_getc). intros c _. cbv zeta.
  destruct (x_waiting c); [apply Tm_ret; [exact I|..]; lia|].
  destruct (_ && _); [eapply Tm_le; [apply Tm_ping|..]; lia|]. destruct (_ && _); [eapply Tm_le; [apply Tm_ping|..]; lia|apply Tm_ret; [exact I|..]; lia].
Qed.
Lemma Tm_incomingPublish ty rem data : Tm (handleIncomingPublish G ty rem data) any ((K + 1) * SEND).
Proof.
  facts. unfold handleIncomingPublish. tmb ltac:(apply Tm_lift with (Q := any); intros; exact I). intros (st, d) _.
  assert (HR : forall x : status, Tm (ret x) any ((K + 1) * SEND - 0)) by (intro; apply Tm_ret; [exact I|..]; nia).
  destruct st; auto. destruct d as [(pub, pid)|]; auto.
  tmb ltac:(apply Tm_getc). intros c _. destruct (_ && _); [apply Tm_ret; [exact I|..]; nia|].
  tmb ltac:(apply Tm_onrecs; intros; eapply publishApi_slots; eauto). intros (st, ns) _.
  destruct (if status_beq st Success then _ else _) as ((st2, dup), ns2). cbv zeta. destruct (status_beq st2 Success); [|apply Tm_ret; [exact I|..]; nia].
  apply Tm_bind with (Q := any) (t1 := K * SEND); [|nia|].
  { destruct dup; [apply Tm_ret; [exact I|..]; nia|apply Tm_callback]. }
  intros _ _. eapply Tm_le; [apply Tm_acks|..]; nia.
Qed.
Lemma Tm_publishAcks ty rem data : Tm (handlePublishAcks G ty rem data) any ((K + 1) * SEND).
Proof.
  facts. unfold handlePublishAcks. tmb ltac:(apply Tm_lift with (Q := any); intros; exact I). intros ack _.
  tmb ltac:(apply Tm_lift with (Q := any); intros; exact I). intros ((st, pid), x) _. cbv zeta.
  apply Tm_bind with (Q := any) (t1 := 0); [|nia|].
  { destruct (status_beq st Success); [apply Tm_onrecs; intros; eapply ackApi_slots; eauto|apply Tm_ret; [exact I|..]; lia]. }
  intros (st2, ns) _. tmb ltac:(apply Tm_getc). intros c _.
  apply Tm_bind with (Q := any) (t1 := 0); [|nia|].
  { destruct (_ && _ && _); [apply Tm_emit; reflexivity|apply Tm_ret; [exact I|..]; lia]. }
  intros _ _. destruct (status_beq st2 Success); [|apply Tm_ret; [exact I|..]; nia].
  tmb ltac:(apply Tm_callback). intros _ _. eapply Tm_le; [apply Tm_acks|..]; nia.
Qed.
Lemma Tm_incomingAck ty rem data mk : Tm (handleIncomingAck G ty rem data mk) any ((K + 1) * SEND).
Proof.
  facts. unfold handleIncomingAck. destruct (_ || _); [apply Tm_publishAcks|].
  apply Tm_bind with (Q := any) (t1 := 0); [|nia|].
  - destruct (ty =? PKT_PINGRESP).
    + tmb ltac:(apply Tm_lift with (Q := any); intros; exact I). intros ((st, pid), x) _.
      apply Tm_bind with (Q := any) (t1 := 0); [|lia|].
      { destruct (_ && _); [apply Tm_modc; intros c' E1 E2; split; [exact E1|exact E2]|apply Tm_ret; [exact I|..]; lia]. }
      intros _ _. apply Tm_ret; [exact I|..]; lia.
    + destruct (_ || _); [|apply Tm_ret; [exact I|..]; lia]. tmb ltac:(apply Tm_lift with (Q := any); intros; exact I). intros ((st, pid), x) _. apply Tm_ret; [exact I|..]; lia.
  - intros ((st, id), inv) _. destruct inv; [|apply Tm_ret; [exact I|..]; nia]. tmb ltac:(apply Tm_callback). intros _ _. apply Tm_ret; [exact I|..]; nia.
Qed.
Lemma Tm_shift total : 0 <= total -> Tm (shift_buffer G total) any 0.
Proof.
  intros Ht t0 s (I1 & I2 & I3 & I4 & I5). unfold shift_buffer. unfold bind at 1. unfold modc at 1. unfold bind at 1. unfold getc. cbn [s_ctx].
  unfold bind at 1. unfold massert. destruct (_ <=? _) eqn:E; [|exact I]. cbn [ret]. unfold modc. cbn [app].
  cbn [set_index x_index x_buf] in E. apply Done_same; [exact I|reflexivity|]. split; [exact I1|]. split; [exact I2|].
  unfold CoreProofs25.ctx_ok. cbn [s_ctx set_buf set_index x_buf x_recs x_index] in *.
  assert (Hi : 0 <= (x_index (s_ctx s) - total) mod g_M G) by (apply Z.mod_pos_bound; lia).
  split; [|split; [exact I4|lia]]. rewrite store_at_len; [exact I3|lia|]. unfold sub, zlen in *. rewrite firstn_length, skipn_length. lia.
Qed.
(** *** One pass *)
Definition pass_ms (mk : bool) : Z := if mk then (K + 2) * SEND + 2 * D else (K + 1) * SEND + D.
Lemma Tm_single mk : SKIP <= W -> Tm (receiveSingleIteration G mk) any (pass_ms mk).
Proof.
  facts. intro HS. assert (M0 : 0 <= K * SEND) by nia. destruct HM as (HM1 & HM2).
  assert (PM : pass_ms mk = (if mk then SEND + D else 0) + ((K + 1) * SEND + D)) by (unfold pass_ms; destruct mk; lia).
  intros t0 s HI. unfold receiveSingleIteration. unfold bind at 1. unfold getc at 1.
  match goal with |- Done _ (match ?m with _ => _ end) _ _ => assert (HA : Done t0 m any (pass_ms mk)) end.
  2: { match goal with |- Done _ (match ?m with _ => _ end) _ _ => destruct m; exact HA end. }
  set (c := s_ctx s) in *. pose proof HI as (_ & _ & J3 & J4 & J5). fold c in J3, J4, J5.
  eapply Done_bind; [apply Tm_recv_into; exact HI|]. cbv beta. intros r s1 u1 t1 E1 I1 Hr _ L1. pose proof (recv_into_skips _ _ _ _ _ _ E1) as Z1. apply recv_into_index in E1.
  rewrite Z1 in *. assert (t1 = t0) as -> by lia. rewrite Z.mod_small in Hr by lia. fold c in E1.
  assert (PM0 : 0 <= pass_ms mk) by (rewrite PM; destruct mk; nia).
  eapply Done_bind with (Q := fun h : status * Z * Z * Z => let '(_, _, rem, hdr) := h in 0 <= rem <= 268435455 /\ 0 <= hdr <= 5) (b1 := 0).
  { destruct (r <? 0) eqn:Er.
    - eapply Tm_bind with (Q := any) (t1 := 0); [apply Tm_modc; apply broke_frame|lia| |exact I1]. intros _ _. apply Tm_ret; lia.
    - destruct (_ && _); [apply Tm_ret; [lia|lia|exact I1]|]. eapply Done_bind with (Q := any) (b1 := 0).
      + unfold modc. destruct I1 as (K1 & K2 & K3 & K4 & K5). apply Done_same; [exact I|reflexivity|].
        split; [exact K1|]. split; [exact K2|]. split; [exact K3|]. split; [exact K4|]. cbn [s_ctx set_index x_index]. rewrite E1, Z.mod_small by lia. lia.
      + intros x0 s2 u2 t2 E2 I2 _ Z2 L2. assert (u2 = []) as -> by (unfold modc in E2; congruence). cbn [skipped fold_right] in *. rewrite Z.mul_0_r in *.
        eapply Done_le; [eapply Tm_bind with (Q := any) (t1 := 0) (bt := 0); [eapply Tm_weak; [apply Tm_getc|..]; try lia; intros; exact I|lia| |exact I2]|intros a Ha; exact Ha|lia|lia].
        intros c2 _. tmb ltac:(apply Tm_lift with (Q := fun x => processIncomingPacketTypeAndLength (x_buf c2) (x_index c2) = Ok x); auto).
        intros (st, h) E. apply Tm_ret; [|lia]. destruct h as [((ty, rl), hl)|]; [|lia]. now apply process_header_bound in E. }
  intros (((st, ty), rem), hdr) s2 u2 t2 _ I2 (Q1 & Q2) Z2 L2. cbv zeta.
  eapply Done_le with (t0 := t2) (b := pass_ms mk) (Q := any); [|auto|lia|lia]. revert t2 s2 I2 L2. intros t2 s2 I2 _.
  match goal with |- Done _ (?m _) _ _ => enough (HT : Tm m any (pass_ms mk)) by (apply HT; exact I2) end. clear dependent s2. rewrite PM.
  apply Tm_bind with (Q := any) (t1 := if mk then SEND + D else 0); [|destruct mk; nia|].
  { destruct mk; rewrite ?andb_true_r, ?andb_false_r; [|apply Tm_ret; [exact I|lia]]. destruct (r =? 0); [|apply Tm_ret; [exact I|lia]].
    tmb ltac:(apply Tm_keepAlive). intros k _. apply Tm_ret; [exact I|lia]. }
  intros st2 _. replace (_ + _ - _) with ((K + 1) * SEND + D) by lia. tmb ltac:(apply Tm_getc). intros c2 (D1 & D2 & D3).
  apply Tm_bind with (Q := any) (t1 := 0); [|nia|].
  { destruct (negb _); [apply Tm_ret; [exact I|lia]|]. destruct (zlen (x_buf c2) <? rem + hdr) eqn:E; [apply Tm_discardStoredPacket; lia|].
    destruct (x_index c2 <? rem + hdr); apply Tm_ret; try exact I; lia. }
  intros st3 _. apply Tm_bind with (Q := any) (t1 := (K + 1) * SEND + D); [|nia|].
  - destruct (status_beq st3 Success); [|apply Tm_ret; [exact I|nia]]. tmb ltac:(apply Tm_getc). intros c3 _.
    tmb ltac:(apply Tm_emit; reflexivity). intros _ _.
    apply Tm_bind with (Q := any) (t1 := (K + 1) * SEND); [|nia|].
    { destruct (_ =? PKT_PUBLISH); [apply Tm_incomingPublish|apply Tm_incomingAck]. }
    intros st4 _. tmb ltac:(apply Tm_shift; lia). intros _ _. apply Tm_bind with (Q := any) (t1 := D); [|nia|].
    { destruct (status_beq st4 Success); [|apply Tm_ret; [exact I|lia]]. tmb ltac:(apply Tm_time). intros now _.
      eapply Tm_le; [apply Tm_modc; same|lia]. }
    intros _ _. apply Tm_ret; [exact I|nia].
  - intros st4 _. apply Tm_ret; [exact I|nia].
Qed.

(** ** Connecting *)
Lemma Tm_retrieve id : Tm (retrieve_publish id) any 0.
Proof. intros t0 s (I1 & I2 & I3 & I4). unfold retrieve_publish. apply Done_same; [exact I|reflexivity|]. split; [exact I1|]. split; [exact I2|]. split; [exact I3|exact I4]. Qed.
Lemma Tm_pubrel fuel : forall id cur, Z.of_nat cur <= N -> (id = 0 \/ N + 1 - Z.of_nat cur < Z.of_nat fuel) -> (0 < fuel)%nat ->
  Tm (pubrel_loop G fuel id cur) any ((N + 1 - Z.of_nat cur) * SEND).
Proof.
  facts. induction fuel as [|fuel IH]; intros id cur Hc Hf Hp; [lia|]. cbn [pubrel_loop].
  destruct (id =? 0) eqn:E0; [apply Tm_ret; [exact I|..]; nia|]. destruct Hf as [|Hf]; [lia|].
  tmb ltac:(apply Tm_acks). intros st _. destruct (negb _); [apply Tm_ret; [exact I|..]; nia|].
  tmb ltac:(apply Tm_getc). intros c (_ & Hk). apply slots_len in Hk. destruct (pubrelToResend (x_recs c) cur) as (id2, cur2) eqn:Es.
  apply stateSelect_cursor in Es; [|lia]. destruct Es as (S1 & S2).
  destruct S1 as [->|S1].
  - destruct fuel; [lia|]. cbn [pubrel_loop]. rewrite Z.eqb_refl. apply Tm_ret; [exact I|..]; nia.
  - eapply Tm_le; [apply IH|..]; try lia; nia.
Qed.
Lemma Tm_publish_loop fuel : forall cur, Z.of_nat cur <= N -> N - Z.of_nat cur < Z.of_nat fuel ->
  Tm (publish_loop G fuel cur) any ((N - Z.of_nat cur) * SEND).
Proof.
  facts. induction fuel as [|fuel IH]; intros cur Hc Hf; [lia|]. cbn [publish_loop].
  tmb ltac:(apply Tm_getc). intros c (_ & Hk). apply slots_len in Hk. destruct (publishToResend (x_recs c) cur) as (id2, cur2) eqn:Es.
  apply stateSelect_cursor in Es; [|lia]. destruct Es as (S1 & S2). destruct (id2 =? 0) eqn:E0; [apply Tm_ret; [exact I|..]; nia|].
  destruct S1 as [|S1]; [lia|]. tmb ltac:(apply Tm_retrieve). intros [bs|] _; [|apply Tm_ret; [exact I|..]; nia].
  tmb ltac:(apply Tm_sendb). intros n _. destruct (negb _); [apply Tm_ret; [exact I|..]; nia|]. eapply Tm_le; [apply IH|..]; try lia; nia.
Qed.
Lemma Tm_clear_loop fuel : forall cur, Z.of_nat cur <= N -> N - Z.of_nat cur < Z.of_nat fuel -> Tm (clear_loop fuel cur) any 0.
Proof.
  induction fuel as [|fuel IH]; intros cur Hc Hf; [lia|]. cbn [clear_loop].
  tmb ltac:(apply Tm_getc). intros c (_ & Hk). apply slots_len in Hk. destruct (publishToResend (x_recs c) cur) as (id2, cur2) eqn:Es.
  apply stateSelect_cursor in Es; [|lia]. destruct Es as (S1 & S2). destruct (id2 =? 0) eqn:E0; [apply Tm_ret; [exact I|..]; lia|].
  destruct S1 as [|S1]; [lia|]. tmb ltac:(apply Tm_emit; reflexivity). intros _ _. apply IH; lia.
Qed.
Lemma Tm_resume : Tm (handleUncleanSessionResumption G) any ((2 * N + 1) * SEND).
Proof.
  facts. unfold handleUncleanSessionResumption.
  destruct (Z.ltb N 0) eqn:EN.
  { intros last s HI. exfalso. destruct HI as (_ & _ & _ & HN & _). unfold slots, zlen in HN. lia. }
  tmb ltac:(apply Tm_getc). intros c (_ & Hk). apply slots_len in Hk. destruct (pubrelToResend (x_recs c) 0) as (id, cur) eqn:Es.
  apply stateSelect_cursor in Es; [|lia]. destruct Es as (S1 & S2).
  apply Tm_bind with (Q := any) (t1 := (N + 1) * SEND); [|nia|].
  { eapply Tm_le; [apply Tm_pubrel|..]; try lia; nia. }
  intros st _. destruct (_ && _); [|apply Tm_ret; [exact I|..]; nia]. eapply Tm_le; [apply Tm_publish_loop|..]; try lia; nia.
Qed.
Lemma Tm_clean : Tm handleCleanSession any 0.
Proof.
  unfold handleCleanSession. tmb ltac:(apply Tm_modc).
  { intros c' E1 (E2 & E3). unfold CoreProofs25.ctx_ok. cbn [set_index set_buf x_buf x_recs x_index]. unfold zlen in *. rewrite repeat_length. split; [exact E1|]. split; [exact E2|lia]. }
  intros _ _. tmb ltac:(apply Tm_getc). intros c (_ & Hk). apply slots_len in Hk.
  apply Tm_bind with (Q := any) (t1 := 0); [|lia|].
  { destruct (x_retr c); [apply Tm_clear_loop; lia|apply Tm_ret; [exact I|..]; lia]. }
  intros _ _. tmb ltac:(apply Tm_modc).
  { intros c' E1 (E2 & E3). unfold CoreProofs25.ctx_ok. cbn [set_recs x_buf x_recs x_index]. rewrite slots_reset. split; [exact E1|]. split; [exact E2|lia]. }
  intros _ _. apply Tm_ret; [exact I|..]; lia.
Qed.
Definition PW (t0 : Z) (w : pull_world) : Prop := let '(s, t, _) := w in In t0 s /\ skipped t = 0.
Lemma pull_PW t0 w : PW t0 w -> PW t0 (snd (pull_recv w)).
Proof.
  destruct w as ((s, t), ov). intros ((I1 & I2 & I3 & I4) & Z1). unfold pull_recv, trecv. destruct (e_recvs (s_env s)) as [|a r]; [split; auto; exact (conj I1 (conj I2 (conj I3 I4)))|].
  destruct (a <? 0); cbn [snd PW]; (split; [exact (conj I1 (conj I2 (conj I3 I4)))|rewrite skipped_app, Z1; reflexivity]).
Qed.
Lemma length_PW t0 fuel : forall w a m k, PW t0 w -> 0 <= a < m ->
  match getRemainingLength_loop pull_recv fuel w a m k with Ok (rl, _, w') => PW t0 w' /\ 0 <= rl | Ub => True end.
Proof.
  induction fuel as [|fuel IH]; intros w a m k HI Ha; cbn [getRemainingLength_loop]; [exact I|].
  destruct (2097152 <? m); [split; [exact HI|unfold REMAINING_LENGTH_INVALID; lia]|]. pose proof (pull_PW t0 w HI) as HP. destruct (pull_recv w) as ((r, b), w1). cbn [snd] in HP.
  assert (Hb : 0 <= Z.land b 127 <= 127) by (change 127 with (Z.ones 7); rewrite Z.land_ones by lia; pose proof (Z.mod_pos_bound b (2 ^ 7)); change (Z.ones 7) with 127; change (2 ^ 7) with 128 in *; lia).
  assert (Ha2 : 0 <= a + Z.land b 127 * m < m * 128) by nia.
  destruct (r =? 1); [|split; [exact HP|unfold REMAINING_LENGTH_INVALID; lia]]. cbv zeta. destruct (_ =? REMAINING_LENGTH_INVALID); [split; [exact HP|lia]|].
  destruct (negb _); [|split; [exact HP|lia]]. apply IH; auto.
Qed.
Definition hdr_pos (r : status * option (Z * Z)) : Prop := match snd r with Some (_, rl) => 0 <= rl | None => True end.
Lemma Done_header t0 s : In t0 s -> match getIncomingHeader s with Ret r s' t => hdr_pos r /\ skipped t = 0 /\ In t0 s' | _ => True end.
Proof.
  intros HI. unfold getIncomingHeader, getIncomingPacketTypeAndLength. pose proof (pull_PW t0 (s, [], false) (conj HI eq_refl)) as HP.
  destruct (pull_recv (s, [], false)) as ((r, b), ((s1, t1), o1)). cbn [snd PW] in HP. destruct HP as (J & Z1).
  assert (HS : forall x, hdr_pos x -> match (if o1 then Stuck else Ret x s1 t1) with Ret r s' t => hdr_pos r /\ skipped t = 0 /\ In t0 s' | _ => True end) by (intros; destruct o1; auto).
  destruct (r =? 1); [|destruct (r =? 0); apply HS; exact I]. destruct (incomingPacketValid b); [|apply HS; exact I].
  unfold getRemainingLength. pose proof (length_PW t0 5 (s1, t1, o1) 0 1 0 (conj J Z1) ltac:(lia)) as P.
  destruct (getRemainingLength_loop _ _ _ _ _ _) as [((rl, k'), ((s2, t2), o2))|]; [|exact I]. destruct P as ((J2 & Z2) & Hl). cbn [rbind].
  destruct (_ && _); cbn [rbind].
  - rewrite Z.eqb_refl. destruct o2; auto. split; [exact I|]. auto.
  - destruct (rl =? REMAINING_LENGTH_INVALID); destruct o2; auto; (split; [first [exact I|exact Hl]|auto]).
Qed.
Lemma Done_connack tmo te fuel : forall lc t0 s, In t0 s -> 0 <= tmo -> tmo + D < 4294967296 -> te <= t0 <= te + tmo ->
  match connack_loop G fuel tmo (u32 te) lc s with Ret r s' t => hdr_pos r /\ skipped t = 0 /\ exists t1, t0 <= t1 <= te + tmo + D /\ In t1 s' | _ => True end.
Proof.
  facts. induction fuel as [|fuel IH]; intros lc t0 s HI T0 T1 L0; [exact I|]. cbn [connack_loop]. pose proof (Done_header t0 s HI) as HH.
  unfold bind at 1. destruct (getIncomingHeader s) as [(st, h) s1 u1| |]; try exact I. destruct HH as (Hh & Z1 & I1).
  destruct (0 <? tmo) eqn:Et.
  - unfold bind at 1. unfold bind at 1. unfold getTime. destruct I1 as (J1 & J2 & J3 & J4). destruct (e_times (s_env s1)) as [|x r]; [exact I|]. apply clock_step in J1. destruct J1 as (Lx & J1).
    cbn [ret app]. set (s2 := mkSt (s_ctx s1) (env_times (s_env s1) r)). assert (I2 : In x s2) by exact (conj J1 (conj J2 (conj J3 J4))). clearbody s2.
    rewrite elapsed_plain by lia. destruct (_ && _) eqn:Es.
    + assert (Ex : x - te < tmo) by (destruct (tmo <=? x - te) eqn:E; [rewrite andb_false_r in Es; discriminate|lia]).
      specialize (IH lc x s2 I2 T0 T1 ltac:(lia)). destruct (connack_loop _ _ _ _ _ _) as [a s3 u3| |]; try exact I. destruct IH as (Ha & Z3 & t1 & L1 & I3).
      split; [exact Ha|]. cbn [app]. rewrite !skipped_app, Z1, Z3. split; [reflexivity|]. exists t1. split; [lia|exact I3].
    + cbn [ret app]. split; [exact Hh|]. rewrite app_nil_r. split; [exact Z1|]. exists x. split; [lia|exact I2].
  - unfold bind at 1. cbn [ret app]. destruct (_ && _).
    + specialize (IH (u16 (lc + 1)) t0 s1 I1 T0 T1 L0). destruct (connack_loop _ _ _ _ _ _) as [a s3 u3| |]; try exact I. destruct IH as (Ha & Z3 & t1 & L1 & I3).
      split; [exact Ha|]. cbn [app]. rewrite !skipped_app, Z1, Z3. split; [reflexivity|]. exists t1. split; [lia|exact I3].
    + cbn [ret app]. split; [exact Hh|]. rewrite app_nil_r. split; [exact Z1|]. exists t0. split; [lia|exact I1].
Qed.
Lemma Done_receiveConnack tmo clean t0 s : In t0 s -> 0 <= tmo -> tmo + READ B + 2 * D < 4294967296 -> Done t0 (receiveConnack G tmo clean s) any (tmo + READ B + 5 * D).
Proof.
  facts. intros HI T0 T1. pose proof (READ_mono 0 B ltac:(lia)) as RB. unfold receiveConnack. apply time_inv; [exact HI|]. intros x s1 Lx I1 _.
  unfold bind at 1. unfold gete at 1.
  match goal with |- Done _ (match ?m with _ => _ end) _ ?b => assert (HD : Done x m any b) end.
  2: { match goal with |- Done _ (match ?m with _ => _ end) _ _ => destruct m; exact HD end. }
  unfold bind at 1. pose proof (Done_connack tmo x (S (length (e_recvs (s_env s1)))) 0 x s1 I1 T0 ltac:(lia) ltac:(lia)) as HH.
  destruct (connack_loop _ _ _ _ _ _) as [(st, h) s2 u2| |]; try exact I. destruct HH as (Hh & Z2 & t2 & L2 & I2).
  match goal with |- Done _ (match ?m with _ => _ end) _ ?b => assert (HE : Done t2 m any (x + b - t2)) end.
  2: { match goal with |- Done _ (match ?m with _ => _ end) _ _ => destruct m as [a s3 u3| |]; try exact I end. destruct HE as (_ & Z3 & t3 & L3 & I3).
       split; [exact I|]. rewrite skipped_app, Z2. split; [lia|]. exists t3. split; [lia|exact I3]. }
  assert (HR : forall r : status * option bool, Done t2 (ret r s2) any (x + (t0 + (tmo + READ B + 5 * D) - x) - t2)) by (intro; apply Tm_ret; [exact I|lia|exact I2]).
  destruct st; try apply HR. destruct h as [(ty, rl)|]; [|apply HR]. cbn [hdr_pos snd] in Hh.
  apply time_inv; [exact I2|]. intros y s3 Ly I3 _. cbv zeta. rewrite elapsed_plain by lia.
  set (rm := if y - x <? tmo then tmo - (y - x) else 0). assert (Hrm : 0 <= rm /\ rm <= tmo /\ y + rm <= x + tmo + 2 * D) by (unfold rm; destruct (y - x <? tmo) eqn:E; lia).
  eapply Tm_bind with (Q := any) (t1 := rm + READ B + 2 * D); [|lia| |exact I3].
  { destruct (ty =? PKT_CONNACK); [apply Tm_receivePacket; lia|apply Tm_ret; [exact I|lia]]. }
  intros st2 _. destruct (status_beq st2 Success); [|apply Tm_ret; [exact I|lia]].
  tmb ltac:(apply Tm_getc). intros c _. tmb ltac:(apply Tm_lift with (Q := any); intros; exact I). intros ((st3, x3), sp) _. apply Tm_ret; [exact I|lia].
Qed.
Lemma Tm_connect ci will tmo : 0 <= N -> 0 <= tmo -> tmo + READ B + 2 * D < 4294967296 -> Tm (connect G ci will tmo) any (tmo + 5 * D + READ B + (2 * N + 2) * SEND).
Proof.
  facts. intros N0 T0 T1. pose proof (READ_mono 0 B ltac:(lia)) as RB.
  unfold connect. destruct (getConnectPacketSize ci will) as (st, size).
  apply Tm_bind with (Q := any) (t1 := SEND + (tmo + READ B + 5 * D)); [|nia|].
  - assert (HR : forall r : status * option bool, Tm (ret r) any (SEND + (tmo + READ B + 5 * D))) by (intro; apply Tm_ret; [exact I|lia]).
    destruct st; auto. destruct size as [(rl, sz)|]; auto.
    tmb ltac:(apply Tm_getc). intros c _. cbv zeta.
    apply Tm_bind with (Q := any) (t1 := SEND); [|lia|].
    { destruct (status_beq _ _); [|apply Tm_ret; [exact I|lia]]. unfold sendConnectWithoutCopy. destruct (match will with Some _ => _ | None => _ end); [apply Tm_ret; [exact I|lia]|].
      tmb ltac:(apply Tm_lift with (Q := any); intros; exact I). intros vs _. tmb ltac:(apply Tm_sendv). intros r _. apply Tm_ret; [exact I|lia]. }
    intros st _. apply Tm_bind with (Q := any) (t1 := tmo + READ B + 5 * D); [|lia|].
    { destruct (status_beq _ _); [intros t0 s HI; apply Done_receiveConnack; [exact HI|lia..]|apply Tm_ret; [exact I|lia]]. }
    intros (st2, sp) _. apply Tm_bind with (Q := any) (t1 := 0); [|lia|].
    { destruct (_ && _); [apply Tm_clean|apply Tm_ret; [exact I|lia]]. }
    intros st3 _. apply Tm_bind with (Q := any) (t1 := 0); [|lia|].
    { destruct (status_beq _ _); [apply Tm_modc; same|apply Tm_ret; [exact I|lia]]. }
    intros _ _. apply Tm_ret; [exact I|lia].
  - intros (st2, sp) _. apply Tm_bind with (Q := any) (t1 := (2 * N + 1) * SEND); [|nia|].
    { destruct (_ && _); [apply Tm_resume|apply Tm_ret; [exact I|nia]]. }
    intros st3 _. apply Tm_bind with (Q := any) (t1 := 0); [|nia|].
    { destruct (_ || _ || _); [apply Tm_ret; [exact I|lia]|apply Tm_modc; apply broke_frame]. }
    intros _ _. apply Tm_ret; [exact I|nia].
Qed.
(** *** A connection that is made *)
Lemma connack_made tmo clean t0 s sp s' t : In t0 s -> 0 <= tmo -> tmo + 2 * D < 4294967296 -> receiveConnack G tmo clean s = Ret (Success, sp) s' t ->
  Done t0 (Ret (Success, sp) s' t) any (tmo + 3 * D + READ 2).
Proof.
  facts. intros HI T0 T1 HR. pose proof (READ_mono 0 2 ltac:(lia)) as RB. unfold receiveConnack in HR. destruct HI as (J1 & J2 & J3 & J4).
  unfold bind at 1 in HR. unfold getTime at 1 in HR. destruct (e_times (s_env s)) as [|x r]; [discriminate|]. apply clock_step in J1. destruct J1 as (Lx & J1).
  set (s1 := mkSt (s_ctx s) (env_times (s_env s) r)) in HR. assert (I1 : In x s1) by exact (conj J1 (conj J2 (conj J3 J4))). clearbody s1. clear J1 J2 J3 J4.
  unfold bind at 1 in HR. unfold gete in HR. unfold bind at 1 in HR.
  pose proof (Done_connack tmo x (S (length (e_recvs (s_env s1)))) 0 x s1 I1 T0 ltac:(lia) ltac:(lia)) as HH.
  destruct (connack_loop _ _ _ _ _ _) as [(st, h) s2 u2| |]; try discriminate. destruct HH as (Hh & Z2 & t2 & L2 & I2).
  destruct st; try discriminate HR. destruct h as [(ty, rl)|]; [|cbn in HR; injection HR as _ <- <-]. 
  2: { split; [exact I|]. rewrite app_nil_r, Z2. split; [lia|]. exists t2. split; [lia|exact I2]. }
  cbn [hdr_pos snd] in Hh.
  destruct I2 as (J1 & J2 & J3 & J4). unfold bind at 1 in HR. unfold getTime in HR. destruct (e_times (s_env s2)) as [|y r2]; [discriminate|]. apply clock_step in J1. destruct J1 as (Ly & J1).
  set (s3 := mkSt (s_ctx s2) (env_times (s_env s2) r2)) in HR. assert (I3 : In y s3) by exact (conj J1 (conj J2 (conj J3 J4))). clearbody s3. clear J1 J2 J3 J4.
  unfold bind at 1 in HR. destruct (ty =? PKT_CONNACK) eqn:Ety; [|discriminate].
  destruct (receivePacket _ _ _ _) as [st2 s4 u4| |] eqn:E4; try discriminate. destruct (status_beq st2 Success) eqn:E2; [|exfalso; revert HR; destruct st2; cbn in E2 |- *; congruence].
  unfold bind at 1 in HR. unfold getc in HR. unfold bind at 1 in HR. destruct (deserializeAck _) as [((st3, x3), sp3)|] eqn:Ed; [|discriminate]. cbn [lift] in HR.
  assert (E3 : st3 = Success) by (destruct st3; cbn in HR; try congruence; reflexivity). subst st3.
  assert (Erl : rl = 2). { unfold deserializeAck in Ed. cbn [k_data k_type k_rem] in Ed. rewrite Ety in Ed. unfold deserializeConnack in Ed. destruct (rl =? 2) eqn:E; [lia|]. cbn [negb rbind] in Ed. congruence. }
  subst rl. unfold receivePacket in E4. unfold bind at 1 in E4. unfold getc in E4.
  destruct (zlen (x_buf (s_ctx s3)) <? 2) eqn:Ez.
  { exfalso. unfold discardPacket in E4. unfold bind, getc, getTime, gete in E4. destruct (e_times (s_env s3)); [discriminate|]. destruct (discard_loop _ _ _ _ _ _ _ _) as [tt2 s5 u5| |]; try discriminate.
    cbn [ret app] in E4. injection E4 as <- _ _. destruct (tt2 =? 2); discriminate. }
  unfold bind at 1 in E4. destruct (recvExact G 2 s3) as [r5 s5 u5| |] eqn:E5; try discriminate. pose proof (recvExact_skips _ _ _ _ _ E5) as Z5.
  pose proof (Tm_recvExact 2 ltac:(lia) y s3 I3) as HX. rewrite E5 in HX. destruct HX as (_ & _ & t5 & L5 & I5). rewrite Z5 in L5.
  cbn [ret app] in E4. rewrite app_nil_r in E4. injection E4 as _ <- <-.
  assert (s' = s5 /\ t = u2 ++ u5) as (-> & ->). { revert HR. destruct clean, sp3 as [[]|]; cbn [status_beq andb ret app]; rewrite ?app_nil_r; intro HR; try discriminate HR; split; congruence. }
  split; [exact I|]. rewrite skipped_app, Z2, Z5. split; [lia|]. exists t5. split; [lia|exact I5].
Qed.
Lemma connect_made ci will tmo t0 s sp s' t : In t0 s -> 0 <= N -> 0 <= tmo -> tmo + 2 * D < 4294967296 -> connect G ci will tmo s = Ret (Success, sp) s' t ->
  Done t0 (Ret (Success, sp) s' t) any (tmo + 3 * D + READ 2 + (2 * N + 2) * SEND).
Proof.
  facts. intros HI N0 T0 T1 HR. pose proof (READ_mono 0 2 ltac:(lia)) as RB. rewrite <- HR. unfold connect in *. destruct (getConnectPacketSize ci will) as (st, size).
  destruct (bind_inv _ _ _ _ _ _ HR) as (v1 & s1 & u1 & w1 & E1 & HQ1 & Et). destruct v1 as (st1, sp1).
  assert (st1 = Success) as ->.
  { destruct (bind_inv _ _ _ _ _ _ HQ1) as (st2 & s2 & u2 & w2 & E2 & HQ2 & _). destruct (bind_inv _ _ _ _ _ _ HQ2) as (st3 & s3 & u3 & w3 & E3 & HQ3 & _).
    apply ret_inv in HQ3. destruct HQ3 as (HQ3 & _). injection HQ3 as <- _. destruct st1; cbn in E2; try (apply ret_inv in E2; destruct E2 as (E2 & _); congruence). reflexivity. }
  eapply Done_bind with (Q := any) (b1 := SEND + (tmo + 3 * D + READ 2)).
  - rewrite E1. destruct st; try (apply ret_inv in E1; destruct E1 as (E1 & _); congruence). destruct size as [(rl, sz)|].
    2: { apply ret_inv in E1; destruct E1 as (_ & -> & ->). eapply Done_le with (t0 := t0) (b := 0) (Q := any); [apply Done_same; [exact I|reflexivity|exact HI]|auto|lia|lia]. }
    rewrite <- E1. destruct (bind_inv _ _ _ _ _ _ E1) as (c & sa & ua & wa & Ea & Ha & _).
    eapply Done_bind; [apply Tm_getc; exact HI|]. intros c' sa' ua' ta Ea' Ia _ _ La. pose proof (getc_inv _ _ _ _ Ea') as (-> & -> & ->). clear c sa ua wa Ea Ha. cbn [skipped fold_right] in *.
    assert (ta = t0) as -> by lia. cbv zeta in *. destruct (bind_inv _ _ _ _ _ _ E1) as (c & sa & ua & wa & Ea & Ha & _). apply getc_inv in Ea. destruct Ea as (-> & -> & _). cbv zeta in Ha.
    eapply Done_bind with (Q := any) (b1 := SEND).
    { match goal with |- Done _ (?m s) _ _ => assert (HT : Tm m any SEND); [|apply HT; exact HI] end.
      match goal with |- Tm (if ?b then _ else _) _ _ => destruct b end; [|apply Tm_ret; [exact I|lia]]. unfold sendConnectWithoutCopy. destruct (match will with Some _ => _ | None => _ end); [apply Tm_ret; [exact I|lia]|].
      tmb ltac:(apply Tm_lift with (Q := any); intros; exact I). intros vs _. tmb ltac:(apply Tm_sendv). intros r _. apply Tm_ret; [exact I|lia]. }
    intros st4 sb ub tb Eb Ib _ Zb Lb. destruct (bind_inv _ _ _ _ _ _ Ha) as (st4' & sb' & ub' & wb & Eb' & Hb & _). rewrite Eb in Eb'. injection Eb' as <- <- <-.
    destruct (bind_inv _ _ _ _ _ _ Hb) as ((st5, sp5) & sc & uc & wc & Ec & Hc & _).
    assert (st5 = Success) as ->.
    { destruct (bind_inv _ _ _ _ _ _ Hc) as (st6 & s6 & u6 & w6 & E6 & HQ6 & _). destruct (bind_inv _ _ _ _ _ _ HQ6) as (q7 & s7 & u7 & w7 & E7 & HQ7 & _). apply ret_inv in HQ7. destruct HQ7 as (HQ7 & _). injection HQ7 as <- _.
      destruct st5; cbn in E6; try (apply ret_inv in E6; destruct E6 as (E6 & _); congruence). reflexivity. }
    eapply Done_bind with (Q := any) (b1 := tmo + 3 * D + READ 2).
    { rewrite Ec. destruct (status_beq st4 Success) eqn:E4; [eapply connack_made; eauto|]. apply ret_inv in Ec. destruct Ec as (Ec & -> & ->).
      eapply Done_le with (t0 := tb) (b := 0) (Q := any); [apply Done_same; [exact I|reflexivity|exact Ib]|auto|lia|lia]. }
    intros (st6, sp6) sd ud td Ed Id _ Zd Ld.
    match goal with |- Done _ (?m sd) _ _ => assert (HT : Tm m any 0) end.
    { apply Tm_bind with (Q := any) (t1 := 0); [|lia|].
      { match goal with |- Tm (if ?b then _ else _) _ _ => destruct b end; [apply Tm_clean|apply Tm_ret; [exact I|lia]]. }
      intros st3 _. apply Tm_bind with (Q := any) (t1 := 0); [|lia|].
      { match goal with |- Tm (if ?b then _ else _) _ _ => destruct b end; [apply Tm_modc; same|apply Tm_ret; [exact I|lia]]. }
      intros _ _. apply Tm_ret; [exact I|lia]. }
    eapply Done_le; [apply HT; exact Id|auto|lia|lia].
  - intros (st2, sp2) sd ud td Ed Id _ Zd Ld.
    match goal with |- Done _ (?m sd) _ _ => assert (HT : Tm m any ((2 * N + 1) * SEND)) end.
    { apply Tm_bind with (Q := any) (t1 := (2 * N + 1) * SEND); [|nia|].
      { match goal with |- Tm (if ?b then _ else _) _ _ => destruct b end; [apply Tm_resume|apply Tm_ret; [exact I|nia]]. }
      intros st3 _. apply Tm_bind with (Q := any) (t1 := 0); [|nia|].
      { match goal with |- Tm (if ?b then _ else _) _ _ => destruct b end; [apply Tm_ret; [exact I|lia]|apply Tm_modc; apply broke_frame]. }
      intros _ _. apply Tm_ret; [exact I|nia]. }
    eapply Done_le; [apply HT; exact Id|auto|lia|nia].
Qed.
Lemma Tm_call c : SKIP <= W -> 0 <= N -> call_paced G D B c -> Tm (run_call G c) any (call_ms G D N B K c).
Proof.
  facts. intros HW1 N0 HS. pose proof (READ_mono 0 B ltac:(lia)) as RB. destruct c as [o|ci will tmo| |]; cbn [run_call call_ms].
  - apply Tm_op.
  - destruct HS as (HS0 & HS1). tmb ltac:(apply Tm_connect; lia). intros (st, sp) _. apply Tm_ret; [exact I|nia].
  - unfold processLoop. assert (0 <= (K + 2) * SEND) by nia. tmb ltac:(apply Tm_modc; same). intros _ _. eapply Tm_le; [apply Tm_single; exact HW1|unfold pass_ms; lia].
  - apply Tm_single. exact HW1.
Qed.
Lemma Tm_calls l : SKIP <= W -> 0 <= N -> Forall (call_paced G D B) l -> Tm (run_calls G l) any (calls_sum (call_ms G D N B K) l).
Proof.
  facts. intros HW1 N0 HS. pose proof (READ_mono 0 B ltac:(lia)) as RB.
  assert (P : forall c, call_paced G D B c -> 0 <= call_ms G D N B K c) by (intros [o|ci will tmo| |] Hc; cbn [call_ms call_paced] in *; [pose proof (op_msgs_pos o)|..]; nia).
  induction HS as [|c l Hc Hl IH]; [apply Tm_ret; [exact I|cbn; lia]|]. cbn [run_calls].
  assert (P2 : 0 <= calls_sum (call_ms G D N B K) l) by (clear -Hl P; induction Hl as [|y l0 Hy Hl0 IHl]; cbn [calls_sum fold_right]; [lia|]; pose proof (P y Hy); unfold calls_sum in IHl; lia).
  change (calls_sum ?f (c :: l)) with (f c + calls_sum f l). tmb ltac:(apply (Tm_call c); auto). intros st _.
  eapply Tm_bind; [apply IH|lia|]. intros sts _. apply Tm_ret; [exact I|lia].
Qed.
End Clock.
