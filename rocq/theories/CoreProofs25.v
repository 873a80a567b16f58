(** Termination: every call ends within a budget when the clock advances. *)
From Verif Require Import Base StateModel StateSpec StateHarness StateProofs SerModel CoreModel CoreHarness CoreProofs CoreTime.

(** ** The number of record slots never changes *)
Lemma compact_body_len l i k : length (fst (compact_body (l, i) k)) = length l.
Proof. unfold compact_body. destruct (rid _ =? 0); [destruct i; reflexivity|]. destruct i; [cbn [fst]; now rewrite !upd_length|reflexivity]. Qed.
Lemma compact_fold_len ks : forall x, length (fst (fold_left compact_body ks x)) = length (fst x).
Proof. induction ks as [|k ks IH]; intros [l i]; [reflexivity|]. cbn [fold_left]. rewrite IH, compact_body_len. reflexivity. Qed.
Lemma compact_len l : length (compactRecords l) = length l.
Proof. unfold compactRecords. now rewrite compact_fold_len. Qed.
Lemma addRecord_len l id q st r l' : addRecord l id q st = Ok (r, l') -> length l' = length l.
Proof.
  unfold addRecord, rassert. destruct (_ && _); [|discriminate]. destruct (length l) as [|k] eqn:E; [discriminate|].
  set (l1 := if negb _ then _ else _). assert (E1 : length l1 = S k) by (unfold l1; destruct (negb _); rewrite ?compact_len; auto).
  destruct (add_scan _ _ _ _ _) as [[|] [i|]]; intro H; assert (Hl : l' = l1 \/ exists i, l' = upd l1 i (mkRec id q st)) by (try (left; congruence); right; eexists; injection H as _ <-; reflexivity);
    destruct Hl as [->|(j & ->)]; rewrite ?upd_length; auto.
Qed.
Lemma updateRecord_len l i new d l' : updateRecord l i new d = Ok l' -> length l' = length l.
Proof. unfold updateRecord. destruct (nth_error l i); [|discriminate]. intro H. assert (l' = if d then upd l i empty_rec else upd l i (mkRec (rid r) (rqos r) new)) as -> by congruence. destruct d; apply upd_length. Qed.
Lemma updateStateAck_len l i id cur new r l' : updateStateAck l i id cur new = Ok (r, l') -> length l' = length l.
Proof.
  unfold updateStateAck. destruct (validateTransitionAck _ _); [|intro H; f_equal; congruence].
  destruct (pstate_beq cur new); [intro H; f_equal; congruence|].
  destruct (updateRecord _ _ _ _) as [l1|] eqn:E; [|discriminate]. cbn [rbind]. apply updateRecord_len in E.
  destruct (pstate_beq new PubRelSend); intro H; [apply addRecord_len in H; congruence|]. assert (l1 = l') by congruence. congruence.
Qed.

Definition slots (c : recs) : Z := zlen (arr (outRecs c)).
Lemma slots_out c l : length l = length (arr (outRecs c)) -> slots (set_out c l) = slots c.
Proof. unfold slots, zlen. destruct c as [[o|] i]; cbn; intro H; [now rewrite H|reflexivity]. Qed.
Lemma slots_in c l : slots (set_in c l) = slots c.
Proof. reflexivity. Qed.
Lemma slots_reset c : slots (resetRecs c) = slots c.
Proof. unfold slots, zlen. destruct c as [[o|] i]; cbn; [now rewrite repeat_length|reflexivity]. Qed.
Lemma reserve_slots c id q r c' : reserveState c id q = Ok (r, c') -> slots c' = slots c.
Proof.
  unfold reserveState. destruct (qos_beq _ _); [intro H; f_equal; congruence|]. destruct (id =? 0); [intro H; f_equal; congruence|].
  destruct (addRecord _ _ _ _) as [(st, l)|] eqn:E; [|discriminate]. cbn [rbind]. apply addRecord_len in E. intro H.
  assert (c' = set_out c l) as -> by congruence. now apply slots_out.
Qed.
Lemma publishApi_slots c id op q r c' : updateStatePublishApi c id op q = Ok (r, c') -> slots c' = slots c.
Proof.
  assert (U : forall i cur new st s', updateStatePublish c i id op q cur new = Ok (st, s') -> slots s' = slots c).
  { intros i cur new st s' E. unfold updateStatePublish, rassert in E.
    destruct (_ && _); [|discriminate]. destruct (validateTransitionPublish _ _ _ _); [|f_equal; congruence].
    destruct op.
    - destruct (pstate_beq cur new); [f_equal; congruence|]. destruct i; [|discriminate].
      destruct (updateRecord _ _ _ _) as [y|] eqn:E2; [|discriminate]. cbn [rbind] in E. apply updateRecord_len in E2.
      assert (s' = set_out c y) as -> by congruence. now apply slots_out.
    - destruct (addRecord _ _ _ _) as [(x, y)|]; [|discriminate]. cbn [rbind] in E. assert (s' = set_in c y) as -> by congruence. reflexivity. }
  unfold updateStatePublishApi. intro H. destruct q; [f_equal; congruence|..].
  all: destruct (id =? 0); [f_equal; congruence|]; destruct op.
  1,3: destruct (findInRecord _ _) as [[(i, r0)|]|]; [|f_equal; cbn [rbind] in H; congruence|discriminate];
    cbn [rbind] in H; destruct (negb _); [f_equal; congruence|].
  all: destruct (updateStatePublish _ _ _ _ _ _ _) as [(st, s')|] eqn:E; [|discriminate]; cbn [rbind] in H;
    assert (s' = c') by congruence; subst s'; clear H; eapply U; exact E.
Qed.
Lemma ackApi_slots c id ty op r c' : updateStateAckApi c id ty op = Ok (r, c') -> slots c' = slots c.
Proof.
  unfold updateStateAckApi. destruct (id =? 0); [intro H; f_equal; congruence|].
  destruct (findInRecord _ _) as [[(i, r0)|]|]; [|intro H; cbn [rbind] in H; f_equal; congruence|discriminate]. cbn [rbind].
  destruct (updateStateAck _ _ _ _ _) as [(st, l)|] eqn:E; [|discriminate]. cbn [rbind]. apply updateStateAck_len in E. intro H.
  destruct (isPublishOutgoing ty op); [assert (c' = set_out c l) as -> by congruence; now apply slots_out|assert (c' = set_in c l) as -> by congruence; reflexivity].
Qed.
Lemma remove_slots c id r c' : removeStateRecord c id = Ok (r, c') -> slots c' = slots c.
Proof.
  unfold removeStateRecord. destruct (outRecs c) as [l0|] eqn:Eo; [|intro H; f_equal; congruence].
  destruct (findInRecord _ _) as [[(i, r0)|]|]; [|intro H; cbn [rbind] in H; f_equal; congruence|discriminate]. cbn [rbind].
  destruct (pstate_beq _ _); [intro H; f_equal; congruence|]. destruct (_ && _); [intro H; f_equal; congruence|].
  destruct (updateRecord _ _ _ _) as [l'|] eqn:E; [|discriminate]. cbn [rbind]. apply updateRecord_len in E. intro H.
  assert (c' = set_out c l') as -> by congruence. apply slots_out. now rewrite Eo.
Qed.

Lemma ticking_app D l : forall last, ticking D last l -> match l with [] => True | x :: _ => last < x end.
Proof. intros last H. destruct l; [exact I|]. cbn [ticking] in H. lia. Qed.
Lemma sendn_app a b : sendn (a ++ b) = sendn a + sendn b.
Proof. unfold sendn. rewrite filter_app. unfold zlen. rewrite app_length. lia. Qed.
Lemma recvn_app a b : recvn (a ++ b) = recvn a + recvn b.
Proof. unfold recvn. rewrite filter_app. unfold zlen. rewrite app_length. lia. Qed.
Lemma sendn_pos t : 0 <= sendn t. Proof. unfold sendn, zlen. lia. Qed.
Lemma recvn_pos t : 0 <= recvn t. Proof. unfold recvn, zlen. lia. Qed.

Section Time.
Variable G : cfg.
Variable D B N K : Z.
Hypothesis HC : clock_suits G D.
Hypothesis HB : 1 <= B.
Hypothesis HM : largest < g_M G /\ B < g_M G.
Hypothesis HK : 0 <= K.
Definition ctx_ok (c : context) : Prop := slots (x_recs c) = N /\ 0 <= x_index c <= B.

Definition Inv (last : Z) (s : st) : Prop :=
  ticking D last (e_times (s_env s)) /\ Forall (fun l => ops_msgs l <= K) (e_cbs (s_env s)) /\
  zlen (x_buf (s_ctx s)) = B /\ ctx_ok (s_ctx s).
Definition Used (s s' : st) (t : list ev) (bs br bt : Z) : Prop :=
  zlen (e_sends (s_env s')) = zlen (e_sends (s_env s)) - sendn t /\ zlen (e_recvs (s_env s')) = zlen (e_recvs (s_env s)) - recvn t /\
  sendn t <= bs /\ recvn t <= br /\ zlen (e_times (s_env s)) - bt <= zlen (e_times (s_env s')).
Definition At {A} (last : Z) (s : st) (m : res A) (Q : A -> Prop) (bs br bt : Z) : Prop :=
  match m with
  | Ret a s' t => (exists l', last <= l' /\ Inv l' s') /\ Q a /\ Used s s' t bs br bt
  | Undef => True
  | Stuck => False
  end.
Definition Bd {A} (m : Mo A) (Q : A -> Prop) (bs br bt : Z) : Prop := forall last s, Inv last s ->
  bs <= zlen (e_sends (s_env s)) -> br <= zlen (e_recvs (s_env s)) -> bt <= zlen (e_times (s_env s)) -> At last s (m s) Q bs br bt.
Definition any {A} (_ : A) : Prop := True.

Lemma At_bind {A C} (m : Mo A) (f : A -> Mo C) Q Q2 last s b1 r1 t1 bs br bt :
  At last s (m s) Q b1 r1 t1 ->
  (forall a l' s' t, last <= l' -> m s = Ret a s' t -> Inv l' s' -> Q a -> Used s s' t b1 r1 t1 -> At l' s' (f a s') Q2 (bs - b1) (br - r1) (bt - t1)) ->
  At last s (bind m f s) Q2 bs br bt.
Proof.
  intros H K1. unfold bind. destruct (m s) as [a s1 u1| |] eqn:E; auto. destruct H as ((l1 & L1 & I1) & Qa & U).
  specialize (K1 a l1 s1 u1 L1 eq_refl I1 Qa U). destruct (f a s1) as [c s2 u2| |]; auto.
  destruct K1 as ((l2 & L2 & I2) & Q2a & V). split; [exists l2; split; [lia|auto]|]. split; auto.
  destruct U as (U1 & U2 & U3 & U4 & U5), V as (V1 & V2 & V3 & V4 & V5). unfold Used. rewrite sendn_app, recvn_app. lia.
Qed.
Lemma Bd_bind {A C} (m : Mo A) (f : A -> Mo C) Q Q2 b1 r1 t1 bs br bt :
  Bd m Q b1 r1 t1 -> (b1 <= bs /\ r1 <= br /\ t1 <= bt) ->
  (forall a, Q a -> Bd (f a) Q2 (bs - b1) (br - r1) (bt - t1)) -> Bd (bind m f) Q2 bs br bt.
Proof.
  intros H L K1 last s HI Hs Hr Ht. eapply At_bind; [apply H; auto; lia|]. intros a l' s' t _ _ I' Qa (U1 & U2 & U3 & U4 & U5). apply K1; auto; lia.
Qed.
Lemma Bd_weak {A} (m : Mo A) (Q Q2 : A -> Prop) b r t bs br bt : Bd m Q b r t -> (forall a, Q a -> Q2 a) -> b <= bs -> r <= br -> t <= bt -> Bd m Q2 bs br bt.
Proof.
  intros H HQ L1 L2 L3 last s HI Hs Hr Ht. specialize (H last s HI). unfold At in *.
  destruct (m s) as [a s' u| |]; auto; [|apply H; lia]. destruct H as (I' & Qa & (U1 & U2 & U3 & U4 & U5)); try lia. split; auto. split; auto. unfold Used. lia.
Qed.
Lemma Bd_le {A} (m : Mo A) b r t bs br bt : Bd m any b r t -> b <= bs -> r <= br -> t <= bt -> Bd m any bs br bt.
Proof. intros. eapply Bd_weak; eauto. Qed.
Lemma Bd_ret {A} (a : A) (Q : A -> Prop) bs br bt : Q a -> 0 <= bs -> 0 <= br -> 0 <= bt -> Bd (ret a) Q bs br bt.
Proof.
  intros Qa L1 L2 L3 last s HI Hs Hr Ht. cbn [ret At]. split; [exists last; split; [lia|auto]|]. split; auto.
  unfold Used. change (sendn []) with 0. change (recvn []) with 0. lia.
Qed.
Lemma Bd_undef {A} (Q : A -> Prop) bs br bt : Bd undef Q bs br bt.
Proof. intros last s _ _ _ _. exact I. Qed.
Lemma Bd_massert b : Bd (massert b) (fun _ => b = true) 0 0 0.
Proof. unfold massert. destruct b; [apply Bd_ret; auto; lia|apply Bd_undef]. Qed.
Lemma Bd_lift {A} (r : R A) (Q : A -> Prop) : (forall a, r = Ok a -> Q a) -> Bd (lift r) Q 0 0 0.
Proof. intros H last s HI _ _ _. unfold lift. destruct r as [a|]; [|exact I]. apply (Bd_ret a Q); auto; try lia; unfold zlen; lia. Qed.
Lemma Bd_getc : Bd getc (fun c => zlen (x_buf c) = B /\ ctx_ok c) 0 0 0.
Proof.
  intros last s HI _ _ _. unfold getc. split; [exists last; split; [lia|auto]|]. split; [apply HI|]. unfold Used. change (sendn []) with 0. change (recvn []) with 0. lia.
Qed.
Lemma Bd_modc f : (forall c, zlen (x_buf c) = B -> ctx_ok c -> zlen (x_buf (f c)) = B /\ ctx_ok (f c)) -> Bd (modc f) any 0 0 0.
Proof.
  intros H last s (I1 & I2 & I3 & I4) _ _ _. unfold modc. split; [exists last; split; [lia|]|].
  - split; [exact I1|]. split; [exact I2|]. apply H; auto.
  - split; [exact I|]. unfold Used. cbn [s_env]. change (sendn []) with 0. change (recvn []) with 0. lia.
Qed.
Lemma Bd_emit e : sendn [e] = 0 -> recvn [e] = 0 -> Bd (emit e) any 0 0 0.
Proof. intros E1 E2 last s HI _ _ _. unfold emit. split; [exists last; split; [lia|auto]|]. split; [exact I|]. unfold Used. rewrite E1, E2. lia. Qed.
Lemma Bd_onrecs {A} (f : recs -> R (A * recs)) : (forall c a c', f c = Ok (a, c') -> slots c' = slots c) -> Bd (on_recs f) any 0 0 0.
Proof.
  intros H last s (I1 & I2 & I3 & I4) _ _ _. unfold on_recs. destruct (f _) as [(a, r)|] eqn:E; [|exact I].
  split; [exists last; split; [lia|]|split; [exact I|]].
  - split; [exact I1|]. split; [exact I2|]. split; [exact I3|]. unfold ctx_ok in *. cbn [s_ctx set_recs x_recs x_index]. apply H in E. split; [lia|apply I4].
  - unfold Used. cbn [s_env]. change (sendn []) with 0. change (recvn []) with 0. lia.
Qed.
Lemma zlen_cons' {A} (x : A) l : zlen (x :: l) = zlen l + 1.
Proof. unfold zlen. cbn [length]. lia. Qed.
Lemma zlen_pos' {A} (l : list A) : 0 <= zlen l.
Proof. unfold zlen. lia. Qed.
(** a reading, with what it is *)
Lemma At_time last s : Inv last s -> 1 <= zlen (e_times (s_env s)) ->
  exists x s', getTime s = Ret (u32 x) s' [] /\ 1 <= x - last <= D /\ Inv x s' /\ s_ctx s' = s_ctx s /\
    e_sends (s_env s') = e_sends (s_env s) /\ e_recvs (s_env s') = e_recvs (s_env s) /\ zlen (e_times (s_env s')) = zlen (e_times (s_env s)) - 1.
Proof.
  intros (I1 & I2 & I3 & I4) L. unfold getTime. destruct (e_times (s_env s)) as [|x r] eqn:E; [unfold zlen in L; cbn in L; lia|].
  destruct I1 as (T1 & T2). eexists x, _. split; [reflexivity|]. split; [exact T1|]. cbn [s_ctx s_env env_times e_times e_sends e_recvs].
  split; [|split; [reflexivity|]; split; [reflexivity|]; split; [reflexivity|]; rewrite zlen_cons'; lia].
  split; [exact T2|]. split; [exact I2|]. split; [exact I3|exact I4].
Qed.
Lemma Bd_time : Bd getTime any 0 0 1.
Proof.
  intros last s HI Hs Hr Ht. destruct (At_time last s HI Ht) as (x & s' & -> & T & I' & _ & E1 & E2 & E3).
  split; [exists x; split; [lia|auto]|]. split; [exact I|]. unfold Used. change (sendn []) with 0. change (recvn []) with 0. rewrite E1, E2, E3. lia.
Qed.
Lemma Bd_gete {A} (f : env -> Mo A) Q bs br bt : (forall e, bs <= zlen (e_sends e) -> br <= zlen (e_recvs e) -> bt <= zlen (e_times e) -> Bd (f e) Q bs br bt) -> Bd (bind gete f) Q bs br bt.
Proof.
  intros H last s HI Hs Hr Ht. unfold bind, gete. specialize (H (s_env s) Hs Hr Ht last s HI Hs Hr Ht). destruct (f (s_env s) s); auto.
Qed.
Lemma Bd_tsend bs : Bd (tsend bs) any 1 0 0.
Proof.
  intros last s (I1 & I2 & I3 & I4) Hs _ _. unfold tsend. destruct (e_sends (s_env s)) as [|n r] eqn:E; [unfold zlen in Hs; cbn in Hs; lia|].
  destruct (n <? 0).
  - split; [exists last; split; [lia|]; split; [exact I1|]; split; [exact I2|]; split; [exact I3|exact I4]|]. split; [exact I|].
    unfold Used. cbn [s_env env_sends e_sends e_recvs e_times]. rewrite E, zlen_cons'. change (sendn [EOutErr]) with 1. change (recvn [EOutErr]) with 0. lia.
  - split; [exists last; split; [lia|]; split; [exact I1|]; split; [exact I2|]; split; [exact I3|exact I4]|]. split; [exact I|].
    unfold Used. cbn [s_env env_sends e_sends e_recvs e_times]. rewrite E, zlen_cons'. change (sendn [EOut ?x]) with 1. change (recvn [EOut ?x]) with 0. lia.
Qed.
Lemma Bd_trecv n : 0 <= n -> Bd (trecv n) (fun r => zlen (snd r) <= n /\ (fst r < 0 /\ snd r = [] \/ fst r = zlen (snd r))) 0 1 0.
Proof.
  intros Hn last s (I1 & I2 & I3 & I4) _ Hr _. unfold trecv. destruct (e_recvs (s_env s)) as [|a r] eqn:E; [unfold zlen in Hr; cbn in Hr; lia|].
  destruct (a <? 0) eqn:Ea.
  - split; [exists last; split; [lia|]; split; [exact I1|]; split; [exact I2|]; split; [exact I3|exact I4]|].
    split; [cbn [fst snd]; split; [unfold zlen; cbn; lia|left; split; [lia|reflexivity]]|].
    unfold Used. cbn [s_env env_recv e_sends e_recvs e_times]. rewrite E, zlen_cons'. change (sendn [EInErr]) with 0. change (recvn [EInErr]) with 1. lia.
  - split; [exists last; split; [lia|]; split; [exact I1|]; split; [exact I2|]; split; [exact I3|exact I4]|].
    split; [cbn [fst snd]; split; [|right; reflexivity]; unfold zlen; rewrite firstn_length; lia|].
    unfold Used. cbn [s_env env_recv e_sends e_recvs e_times]. rewrite E, zlen_cons'. unfold sendn, recvn, zlen. cbn [filter length]. lia.
Qed.
Lemma store_at_len buf off bs : 0 <= off -> off + zlen bs <= zlen buf -> zlen (store_at buf off bs) = zlen buf.
Proof. unfold store_at, zlen. rewrite !app_length, firstn_length, skipn_length. lia. Qed.
Lemma Bd_recv_into off n : Bd (recv_into off n) (fun r => r <= n) 0 1 0.
Proof.
  unfold recv_into. apply Bd_bind with (Q := fun c => zlen (x_buf c) = B /\ ctx_ok c) (b1 := 0) (r1 := 0) (t1 := 0); [apply Bd_getc|lia|].
  intros c (Hc & _). eapply Bd_bind; [apply Bd_massert|lia|]. intros u Hm. cbv beta in Hm. clear u.
  eapply Bd_bind; [apply Bd_trecv; lia|lia|]. intros (r, bs) (H1 & H2). cbn [fst snd] in *.
  eapply Bd_bind; [apply Bd_modc|lia|].
  - intros c' E1 E2. cbn [set_buf x_buf x_recs]. split; auto. rewrite store_at_len; lia.
  - intros _ _. apply Bd_ret; lia.
Qed.

(** ** Sending *)
Lemma elapsed_plain x t0 : 0 <= x - t0 < 4294967296 -> elapsed (u32 x) (u32 t0) = x - t0.
Proof. intro H. unfold elapsed, u32. rewrite <- Zminus_mod. now apply Z.mod_small. Qed.

(** after the transport was asked: [m] goes on with the time [x0] of the last reading *)
Lemma At_weak {A} (m : res A) (Q Q2 : A -> Prop) last last' s b r t bs br bt : At last s m Q b r t -> (forall a, Q a -> Q2 a) -> last' <= last -> b <= bs -> r <= br -> t <= bt -> At last' s m Q2 bs br bt.
Proof.
  unfold At. destruct m as [a s' u| |]; auto. intros ((l' & L & I') & Qa & (U1 & U2 & U3 & U4 & U5)) HQ L0 L1 L2 L3.
  split; [exists l'; split; [lia|auto]|]. split; auto. unfold Used. lia.
Qed.
(** one reading of the clock, then [f] *)
Lemma At_bind_time {A} (f : Z -> Mo A) Q last s bs br bt : Inv last s -> 1 <= zlen (e_times (s_env s)) ->
  (forall x s', 1 <= x - last <= D -> Inv x s' -> s_ctx s' = s_ctx s -> zlen (e_sends (s_env s')) = zlen (e_sends (s_env s)) -> zlen (e_recvs (s_env s')) = zlen (e_recvs (s_env s)) ->
     zlen (e_times (s_env s')) = zlen (e_times (s_env s)) - 1 -> At x s' (f (u32 x) s') Q bs br (bt - 1)) ->
  At last s (bind getTime f s) Q bs br bt.
Proof.
  intros HI L H. destruct (At_time last s HI L) as (x & s' & E & T & I' & Ec & E1 & E2 & E3). unfold bind. rewrite E.
  specialize (H x s' T I' Ec ltac:(congruence) ltac:(congruence) E3). destruct (f (u32 x) s') as [a s2 u| |]; auto.
  destruct H as ((l' & L' & I2) & Qa & (U1 & U2 & U3 & U4 & U5)). cbn [app]. split; [exists l'; split; [lia|auto]|]. split; auto. unfold Used. rewrite E1, E2 in *. lia.
Qed.
Lemma transport_broke_frame c : zlen (x_buf c) = B -> ctx_ok c -> zlen (x_buf (transport_broke c)) = B /\ ctx_ok (transport_broke c).
Proof. unfold transport_broke, ctx_ok. destruct (cstatus_beq _ _); cbn [set_status x_buf x_recs x_index]; auto. Qed.

(** what one round of a send loop does between the transport call and the test of
    the timeout: at most one reading *)
Definition round (sendResult bytesToSend sent : Z) : Mo Z :=
  (if 0 <? sendResult then
     massert (sendResult <=? bytesToSend - sent) ;;
     let* t := getTime in
     modc (fun c => set_lastTx c t) ;;
     ret (sent + sendResult)
   else if sendResult <? 0 then
     modc transport_broke ;; ret sendResult
   else ret sent).
Lemma At_round r b n last s : Inv last s -> 1 <= zlen (e_times (s_env s)) ->
  match round r b n s with
  | Ret a s' t => exists l', 0 <= l' - last <= D /\ Inv l' s' /\ Used s s' t 0 0 1
  | Undef => True | Stuck => False end.
Proof.
  intros HI L. unfold round. destruct (0 <? r).
  - unfold massert. destruct (r <=? b - n); [|exact I]. unfold bind at 1. cbn [ret].
    destruct (At_time last s HI L) as (x & s' & E & T & (I1 & I2 & I3 & I4) & Ec & E1 & E2 & E3). unfold bind at 1. rewrite E. unfold bind, modc, ret. cbn [app].
    exists x. split; [lia|]. split; [split; [exact I1|]; split; [exact I2|]; split; [exact I3|exact I4]|].
    unfold Used. cbn [s_env]. change (sendn []) with 0. change (recvn []) with 0. rewrite E1, E2. lia.
  - assert (L0 : Used s s [] 0 0 1) by (unfold Used; change (sendn []) with 0; change (recvn []) with 0; lia).
    pose proof HC as (C1 & _). destruct (r <? 0); [|exists last; split; [lia|auto]]. destruct HI as (I1 & I2 & I3 & I4).
    unfold bind, modc, ret. cbn [app]. exists last. split; [lia|]. split; [|exact L0]. pose proof (transport_broke_frame _ I3 I4) as (J1 & J2).
    split; [exact I1|]. split; [exact I2|]. split; [exact J1|exact J2].
Qed.

(** run [m], knowing exactly where it leads *)
Lemma At_step {A C} (m : Mo A) (f : A -> Mo C) (P : A -> st -> list ev -> Prop) Q last s bs br bt :
  match m s with Ret a s' t => P a s' t | Undef => True | Stuck => False end ->
  (forall a s' t, P a s' t -> exists l' b1 r1 t1, last <= l' /\ Used s s' t b1 r1 t1 /\ At l' s' (f a s') Q (bs - b1) (br - r1) (bt - t1)) ->
  At last s (bind m f s) Q bs br bt.
Proof.
  intros H K1. unfold bind. destruct (m s) as [a s1 u1| |]; auto. destruct (K1 a s1 u1 H) as (l1 & b1 & r1 & t1 & L1 & U & HA).
  destruct (f a s1) as [c s2 u2| |]; auto. destruct HA as ((l2 & L2 & I2) & Q2a & V). split; [exists l2; split; [lia|auto]|]. split; auto.
  destruct U as (U1 & U2 & U3 & U4 & U5), V as (V1 & V2 & V3 & V4 & V5). unfold Used. rewrite sendn_app, recvn_app. lia.
Qed.
Lemma At_tsend bs last s : Inv last s -> 1 <= zlen (e_sends (s_env s)) ->
  match tsend bs s with Ret a s' t => Inv last s' /\ Used s s' t 1 0 0 | Undef => True | Stuck => False end.
Proof.
  intros (I1 & I2 & I3 & I4) Hs. unfold tsend. destruct (e_sends (s_env s)) as [|n r] eqn:E; [unfold zlen in Hs; cbn in Hs; lia|].
  destruct (n <? 0); (split; [split; [exact I1|]; split; [exact I2|]; split; [exact I3|exact I4]|]);
    unfold Used; cbn [s_env env_sends e_sends e_recvs e_times]; rewrite E, zlen_cons'; unfold sendn, recvn, zlen; cbn [filter length]; lia.
Qed.
Lemma At_sendv fuel : forall vs b t0 last sent s, Inv last s -> 0 <= last - t0 <= g_sendto G ->
  let r := g_sendto G + 1 - (last - t0) in
  r <= zlen (e_sends (s_env s)) -> 2 * r <= zlen (e_times (s_env s)) -> r < Z.of_nat fuel ->
  At last s (sendv_loop G fuel vs b (u32 t0) sent s) any r 0 (2 * r).
Proof.
  pose proof HC as (C1 & C2 & C3 & C4 & C5 & C6).
  induction fuel as [|fuel IH]; intros vs b t0 last sent s HI Hd r Hs Ht Hf; [lia|]. cbn [sendv_loop].
  destruct (_ && _); [|apply Bd_ret; auto; try lia; [exact I|apply zlen_pos']].
  eapply At_step with (P := fun _ s' t => Inv last s' /\ Used s s' t 1 0 0).
  { destruct vs as [|v vs]; [exact I|]. apply At_tsend; auto. lia. }
  intros sr s1 u1 (I1 & U1). exists last, 1, 0, 0. split; [lia|]. split; [exact U1|]. destruct U1 as (U11 & U12 & U13 & U14 & U15).
  eapply At_step with (P := fun _ s' t => exists l', 0 <= l' - last <= D /\ Inv l' s' /\ Used s1 s' t 0 0 1).
  { apply (At_round sr b sent last s1 I1). lia. }
  intros n2 s2 u2 (l2 & L2 & I2 & U2). exists l2, 0, 0, 1. split; [lia|]. split; [exact U2|]. destruct U2 as (U21 & U22 & U23 & U24 & U25).
  pose proof (sendn_pos u1). pose proof (sendn_pos u2). pose proof (recvn_pos u1). pose proof (recvn_pos u2).
  apply At_bind_time; [auto|lia|]. intros x s3 Tx I3 _ E1 E2 E3.
  rewrite elapsed_plain by lia. destruct (g_sendto G <? x - t0) eqn:Ex.
  - apply Bd_ret; auto; try lia; try apply zlen_pos'. exact I.
  - specialize (IH (advance vs sr) b t0 x n2 s3 I3 ltac:(lia)). cbv zeta in IH.
    eapply At_weak; [apply IH|auto|..]; try lia.
Qed.
Lemma At_sendb fuel : forall rest b t0 last sent s, Inv last s -> 0 <= last - t0 <= g_sendto G ->
  let r := g_sendto G + 1 - (last - t0) in
  r <= zlen (e_sends (s_env s)) -> 2 * r <= zlen (e_times (s_env s)) -> r < Z.of_nat fuel ->
  At last s (sendb_loop G fuel rest b (u32 t0) sent s) any r 0 (2 * r).
Proof.
  pose proof HC as (C1 & C2 & C3 & C4 & C5 & C6).
  induction fuel as [|fuel IH]; intros rest b t0 last sent s HI Hd r Hs Ht Hf; [lia|]. cbn [sendb_loop].
  destruct (_ && _); [|apply Bd_ret; auto; try lia; [exact I|apply zlen_pos']].
  eapply At_step with (P := fun _ s' t => Inv last s' /\ Used s s' t 1 0 0).
  { apply At_tsend; auto. lia. }
  intros sr s1 u1 (I1 & U1). exists last, 1, 0, 0. split; [lia|]. split; [exact U1|]. destruct U1 as (U11 & U12 & U13 & U14 & U15).
  eapply At_step with (P := fun _ s' t => exists l', 0 <= l' - last <= D /\ Inv l' s' /\ Used s1 s' t 0 0 1).
  { apply (At_round sr b sent last s1 I1). lia. }
  intros n2 s2 u2 (l2 & L2 & I2 & U2). exists l2, 0, 0, 1. split; [lia|]. split; [exact U2|]. destruct U2 as (U21 & U22 & U23 & U24 & U25).
  pose proof (sendn_pos u1). pose proof (sendn_pos u2). pose proof (recvn_pos u1). pose proof (recvn_pos u2).
  apply At_bind_time; [auto|lia|]. intros x s3 Tx I3 _ E1 E2 E3.
  rewrite elapsed_plain by lia. destruct (g_sendto G <=? x - t0) eqn:Ex.
  - apply Bd_ret; auto; try lia; try apply zlen_pos'. exact I.
  - specialize (IH (skipn (Z.to_nat sr) rest) b t0 x n2 s3 I3 ltac:(lia)). cbv zeta in IH.
    eapply At_weak; [apply IH|auto|..]; try lia.
Qed.
Lemma Bd_sendv vs : Bd (sendMessageVector G vs) any (msg_sends G) 0 (msg_times G).
Proof.
  unfold msg_sends, msg_times. pose proof HC as (C1 & C2 & C3 & C4 & C5 & C6). intros last s HI Hs Hr Ht. unfold sendMessageVector.
  apply At_bind_time; [auto|lia|]. intros x s1 Tx I1 _ E1 E2 E3. unfold bind, gete.
  assert (HA : At x s1 (sendv_loop G (S (length (e_sends (s_env s1)))) vs (zlen (concat vs)) (u32 x) 0 s1) any (g_sendto G + 1) 0 (2 * (g_sendto G + 1) + 1 - 1)).
  { eapply At_weak; [eapply At_sendv|auto|..]; eauto; unfold zlen in *; lia. }
  destruct (sendv_loop _ _ _ _ _ _ _); auto.
Qed.
Lemma Bd_sendb bs : Bd (sendBuffer G bs) any (msg_sends G) 0 (msg_times G).
Proof.
  unfold msg_sends, msg_times. pose proof HC as (C1 & C2 & C3 & C4 & C5 & C6). intros last s HI Hs Hr Ht. unfold sendBuffer.
  apply At_bind_time; [auto|lia|]. intros x s1 Tx I1 _ E1 E2 E3. unfold bind, gete.
  assert (HA : At x s1 (sendb_loop G (S (length (e_sends (s_env s1)))) bs (zlen bs) (u32 x) 0 s1) any (g_sendto G + 1) 0 (2 * (g_sendto G + 1) + 1 - 1)).
  { eapply At_weak; [eapply At_sendb|auto|..]; eauto; unfold zlen in *; lia. }
  destruct (sendb_loop _ _ _ _ _ _ _); auto.
Qed.

(** ** Receiving *)
Lemma At_recv_into off n last s : Inv last s -> 1 <= zlen (e_recvs (s_env s)) ->
  match recv_into off n s with Ret r s' t => Inv last s' /\ r <= n /\ Used s s' t 0 1 0 | Undef => True | Stuck => False end.
Proof.
  intros (I1 & I2 & I3 & I4) Hr. unfold recv_into. unfold bind at 1. unfold getc. unfold massert. destruct (_ && _ && _) eqn:Em; [|exact I].
  unfold bind at 1. cbn [ret]. unfold bind at 1. unfold trecv. destruct (e_recvs (s_env s)) as [|a r] eqn:E; [unfold zlen in Hr; cbn in Hr; lia|].
  destruct (a <? 0) eqn:Ea.
  - unfold bind, modc, ret. cbn [app]. split; [|split; [lia|]].
    + split; [exact I1|]. split; [exact I2|]. split; [|exact I4]. cbn [s_ctx set_buf x_buf]. rewrite store_at_len; [exact I3|lia|unfold zlen in *; cbn [length]; lia].
    + unfold Used. cbn [s_env env_recv e_sends e_recvs e_times]. rewrite E, zlen_cons'. unfold sendn, recvn, zlen. cbn [filter length]. lia.
  - unfold bind, modc, ret. cbn [app]. split; [|split].
    + split; [exact I1|]. split; [exact I2|]. split; [|exact I4]. cbn [s_ctx set_buf x_buf]. rewrite store_at_len; [exact I3|lia|unfold zlen in *; rewrite firstn_length; lia].
    + unfold zlen. rewrite firstn_length. lia.
    + unfold Used. cbn [s_env env_recv e_sends e_recvs e_times]. rewrite E, zlen_cons'. unfold sendn, recvn, zlen. cbn [filter length]. lia.
Qed.
Lemma At_recvExact fuel : forall off n total t0 last s, Inv last s -> 0 <= last - t0 < polls G -> 0 <= n ->
  let r := if n =? 0 then 0 else (n - 1) * polls G + (polls G - (last - t0)) in
  r <= zlen (e_recvs (s_env s)) -> r <= zlen (e_times (s_env s)) -> r < Z.of_nat fuel ->
  At last s (recvExact_loop G fuel off n total (u32 t0) s) any 0 r r.
Proof.
  pose proof HC as (C1 & C2 & C3 & C4 & C5 & C6). fold (polls G) in C6. assert (HP : 1 <= polls G) by (unfold polls; lia).
  induction fuel as [|fuel IH]; intros off n total t0 last s HI Hd Hn r Hr Ht Hf;
    [exfalso; assert (0 <= r) by (unfold r; destruct (n =? 0) eqn:En; nia); lia|]. cbn [recvExact_loop].
  destruct (0 <? n) eqn:En; [|assert (r = 0) by (unfold r; replace (n =? 0) with true by lia; reflexivity); apply Bd_ret; auto; try lia; [exact I|apply zlen_pos']].
  assert (Er : r = (n - 1) * polls G + (polls G - (last - t0))) by (unfold r; replace (n =? 0) with false by lia; reflexivity). clearbody r.
  assert (Hnn : 0 <= (n - 1) * polls G) by nia.
  eapply At_step with (P := fun a s' t => Inv last s' /\ a <= n /\ Used s s' t 0 1 0).
  { apply At_recv_into; auto. lia. }
  intros a s1 u1 (I1 & La & U1). exists last, 0, 1, 0. split; [lia|]. split; [exact U1|]. destruct U1 as (U11 & U12 & U13 & U14 & U15).
  pose proof (sendn_pos u1). pose proof (recvn_pos u1).
  destruct (a <? 0) eqn:Ea.
  - eapply At_bind; [apply Bd_modc; [apply transport_broke_frame|eauto|..]; try apply zlen_pos'|]. cbv beta. intros ? l' s' t L' _ I' _ (V1 & V2 & V3 & V4 & V5).
    apply Bd_ret; auto; try lia; try apply zlen_pos'. exact I.
  - destruct (0 <? a) eqn:Ea'.
    + apply At_bind_time; [auto|lia|]. intros x s2 Tx I2 _ E1 E2 E3. unfold massert. destruct (a <=? n); [|exact I].
      unfold bind at 1. cbn [ret]. specialize (IH (off + a) (n - a) (total + a) x x s2 I2 ltac:(lia) ltac:(lia)). cbv zeta in IH.
      assert (Hr2 : (if n - a =? 0 then 0 else (n - a - 1) * polls G + (polls G - (x - x))) <= r - 1) by (destruct (n - a =? 0); nia).
      assert (HA : At x s2 (recvExact_loop G fuel (off + a) (n - a) (total + a) (u32 x) s2) any (0 - 0) (r - 1) (r - 0 - 1)).
      { eapply At_weak; [apply IH|auto|..]; try lia. }
      destruct (recvExact_loop _ _ _ _ _ _ _); auto.
    + apply At_bind_time; [auto|lia|]. intros x s2 Tx I2 _ E1 E2 E3. rewrite elapsed_plain by lia.
      destruct (g_poll G <=? x - t0) eqn:Ex.
      * apply Bd_ret; auto; try lia; try apply zlen_pos'. exact I.
      * assert (Hp : polls G = g_poll G) by (unfold polls; lia). specialize (IH off n total t0 x s2 I2 ltac:(lia) ltac:(lia)). cbv zeta in IH. replace (n =? 0) with false in IH by lia.
        eapply At_weak; [apply IH|auto|..]; try lia.
Qed.
Lemma Bd_recvExact n : 0 <= n -> Bd (recvExact G n) any 0 (n * polls G) (n * polls G + 1).
Proof.
  intros Hn last s HI Hs Hr Ht. assert (HP : 1 <= polls G) by (unfold polls; lia). unfold recvExact. unfold bind at 1. unfold getc.
  unfold massert. destruct (n <=? _); [|exact I]. unfold bind at 1. cbn [ret].
  assert (HA : At last s (bind getTime (fun now => bind gete (fun e => recvExact_loop G (S (length (e_recvs e))) 0 n 0 now)) s) any 0 (n * polls G) (n * polls G + 1)).
  { apply At_bind_time; [auto|nia|]. intros x s1 Tx I1 _ E1 E2 E3. unfold bind, gete.
    assert (HA : At x s1 (recvExact_loop G (S (length (e_recvs (s_env s1)))) 0 n 0 (u32 x) s1) any 0 (n * polls G) (n * polls G + 1 - 1)).
    { assert (Hr2 : (if n =? 0 then 0 else (n - 1) * polls G + (polls G - (x - x))) <= n * polls G) by (destruct (n =? 0); nia).
      eapply At_weak; [eapply At_recvExact|auto|..]; eauto; unfold zlen in *; try lia. }
    destruct (recvExact_loop _ _ _ _ _ _ _); auto. }
  destruct (bind getTime _ s); auto.
Qed.

(** ** Skipping a packet that does not fit *)
Lemma polls_pos : 1 <= polls G.
Proof. unfold polls. lia. Qed.
Lemma ms_pos : 1 <= msg_sends G.
Proof. pose proof HC as (C1 & C2 & _). unfold msg_sends. lia. Qed.
Lemma mt_pos : 1 <= msg_times G.
Proof. pose proof HC as (C1 & C2 & _). unfold msg_times. lia. Qed.
Ltac facts := pose proof polls_pos; pose proof ms_pos; pose proof mt_pos.
Ltac bnd L := eapply Bd_bind; [L|first [lia|nia]|].

Lemma Bd_discardStored fuel : forall btr rem total, 0 <= total <= rem -> rem <= largest -> 1 <= btr -> rem - total < Z.of_nat fuel ->
  Bd (discardStored_loop G fuel btr rem total) any 0 ((rem - total) * polls G) ((rem - total) * (polls G + 1)).
Proof.
  facts. induction fuel as [|fuel IH]; intros btr rem total Ht Hl Hb Hf; [lia|]. cbn [discardStored_loop].
  destruct (total <? rem) eqn:E; [|apply Bd_ret; [exact I|..]; nia].
  set (n := if rem - total <? btr then rem - total else btr). assert (Hn : 1 <= n <= rem - total) by (unfold n; destruct (rem - total <? btr) eqn:E2; lia).
  bnd ltac:(apply (Bd_recvExact n); lia). intros r _. cbv beta. destruct (r =? n) eqn:Er; cbn [negb]; [|apply Bd_ret; [exact I|..]; nia].
  assert (r = n) as -> by lia. unfold largest in Hl. replace (u32 (total + n)) with (total + n) by (unfold u32; rewrite Z.mod_small; lia).
  eapply Bd_le; [apply IH|..]; try lia; [unfold largest; lia|nia..].
Qed.
Lemma Bd_discard fuel : forall btr rem total tmo t0, 0 <= total <= rem -> rem <= largest -> 1 <= btr -> rem - total < Z.of_nat fuel ->
  Bd (discard_loop G fuel btr rem total tmo t0) any 0 ((rem - total) * polls G) ((rem - total) * (polls G + 2)).
Proof.
  facts. induction fuel as [|fuel IH]; intros btr rem total tmo t0 Ht Hl Hb Hf; [lia|]. cbn [discard_loop].
  destruct (total <? rem) eqn:E; [|apply Bd_ret; [exact I|..]; nia].
  set (n := if rem - total <? btr then rem - total else btr). assert (Hn : 1 <= n <= rem - total) by (unfold n; destruct (rem - total <? btr) eqn:E2; lia).
  bnd ltac:(apply (Bd_recvExact n); lia). intros r _. cbv beta. destruct (r =? n) eqn:Er; cbn [negb]; [|apply Bd_ret; [exact I|..]; nia].
  assert (r = n) as -> by lia. unfold largest in Hl. replace (u32 (total + n)) with (total + n) by (unfold u32; rewrite Z.mod_small; lia).
  bnd ltac:(apply Bd_time). intros now _. destruct (tmo <=? elapsed now t0); [apply Bd_ret; [exact I|..]; nia|].
  eapply Bd_le; [apply IH|..]; try lia; [unfold largest; lia|nia..].
Qed.
Lemma Bd_discardStoredPacket type rem hdr : 0 <= rem + hdr <= largest ->
  Bd (discardStoredPacket G type rem hdr) any 0 (largest * polls G) (largest * (polls G + 1)).
Proof.
  facts. intros Hl. unfold discardStoredPacket. destruct HM as (HM1 & HM2). assert (L0 : 0 <= largest) by (unfold largest; lia).
  bnd ltac:(apply Bd_emit; reflexivity). intros _ _.
  bnd ltac:(apply Bd_getc). intros c (Hc1 & Hc2 & Hc3).
  bnd ltac:(apply Bd_massert). intros u Hu. cbv beta in Hu. clear u.
  rewrite (Z.mod_small (rem + hdr - x_index c)) by lia. set (n := rem + hdr - x_index c). assert (Hn : 0 <= n <= largest) by (unfold n; lia).
  apply Bd_gete. intros e _ _ He.
  bnd ltac:(apply Bd_discardStored with (total := 0); try lia; unfold zlen in He; nia). intros total _.
  bnd ltac:(apply Bd_modc).
  { intros c' E1 (E2 & E3). unfold ctx_ok. cbn [set_index set_buf x_buf x_recs x_index]. unfold zlen in *. rewrite repeat_length. split; [exact E1|]. split; [exact E2|lia]. }
  intros _ _. apply Bd_ret; [exact I|..]; nia.
Qed.
Lemma Bd_receivePacket rem tmo : 0 <= rem <= largest ->
  Bd (receivePacket G rem tmo) any 0 (largest * polls G) (largest * (polls G + 2) + 1).
Proof.
  facts. intros Hl. unfold receivePacket. assert (L0 : 0 <= largest) by (unfold largest; lia).
  bnd ltac:(apply Bd_getc). intros c (Hc1 & Hc2 & Hc3). destruct (zlen (x_buf c) <? rem) eqn:E.
  - unfold discardPacket. bnd ltac:(apply Bd_getc). intros c2 (Hd1 & Hd2 & Hd3). bnd ltac:(apply Bd_time). intros t0 _.
    apply Bd_gete. intros e _ _ He. bnd ltac:(apply Bd_discard with (total := 0); try lia; unfold zlen in He; nia). intros total _.
    apply Bd_ret; [exact I|..]; nia.
  - bnd ltac:(apply Bd_recvExact; lia). intros r _. apply Bd_ret; [exact I|..]; nia.
Qed.

(** ** Acknowledgements, PINGREQ, API calls *)
Lemma Bd_acks id ps : Bd (sendPublishAcks G id ps) any (msg_sends G) 0 (msg_times G).
Proof.
  facts. unfold sendPublishAcks. destruct (ackToSend ps) as [(ty, pt)|]; [|apply Bd_ret; [exact I|..]; lia].
  bnd ltac:(apply Bd_lift with (Q := any); intros; exact I). intros (st, buf) _.
  apply Bd_bind with (Q := any) (b1 := msg_sends G) (r1 := 0) (t1 := msg_times G); [|lia|].
  - destruct (status_beq st Success); [|apply Bd_ret; [exact I|..]; lia].
    bnd ltac:(apply Bd_getc). intros c _. destruct (status_beq _ _); [|apply Bd_ret; [exact I|..]; lia].
    bnd ltac:(apply Bd_sendb). intros r _. apply Bd_ret; [exact I|..]; lia.
  - intros st2 _. destruct (status_beq st2 Success); [|apply Bd_ret; [exact I|..]; lia].
    bnd ltac:(apply Bd_modc; intros c' E1 E2; split; [exact E1|exact E2]). intros _ _.
    bnd ltac:(apply Bd_onrecs; intros; eapply ackApi_slots; eauto). intros (st3, ns) _. apply Bd_ret; [exact I|..]; lia.
Qed.
Lemma Bd_ping : Bd (ping G) any (msg_sends G) 0 (msg_times G).
Proof.
  facts. unfold ping. bnd ltac:(apply Bd_lift with (Q := any); intros; exact I). intros (st, buf) _.
  destruct (status_beq st Success); [|apply Bd_ret; [exact I|..]; lia].
  bnd ltac:(apply Bd_getc). intros c _. destruct (status_beq _ _); [|apply Bd_ret; [exact I|..]; lia].
  bnd ltac:(apply Bd_sendb). intros r _. destruct (r <? 2); [apply Bd_ret; [exact I|..]; lia|].
  bnd ltac:(apply Bd_modc; intros c' E1 E2; split; [exact E1|exact E2]). intros _ _. apply Bd_ret; [exact I|..]; lia.
Qed.
Lemma Bd_disconnect : Bd (disconnect G) any (msg_sends G) 0 (msg_times G).
Proof.
  facts. unfold disconnect. bnd ltac:(apply Bd_lift with (Q := any); intros; exact I). intros (st, buf) _.
  destruct (status_beq st Success); [|apply Bd_ret; [exact I|..]; lia].
  bnd ltac:(apply Bd_getc). intros c _. destruct (cstatus_beq _ _); [apply Bd_ret; [exact I|..]; lia|].
  bnd ltac:(apply Bd_modc).
  { intros c' E1 (E2 & E3). unfold ctx_ok. cbn [set_index set_buf set_status x_buf x_recs x_index]. unfold zlen in *. rewrite repeat_length. split; [exact E1|]. split; [exact E2|lia]. }
  intros _ _. bnd ltac:(apply Bd_sendb). intros r _. apply Bd_ret; [exact I|..]; lia.
Qed.
Lemma Bd_validate subs n id : Bd (validateSubUnsub subs n id) any 0 0 0.
Proof.
  unfold validateSubUnsub. destruct subs; [|apply Bd_ret; [exact I|..]; lia]. destruct (n =? 0); [apply Bd_ret; [exact I|..]; lia|].
  destruct (id =? 0); [apply Bd_ret; [exact I|..]; lia|]. bnd ltac:(apply Bd_getc). intros c _. destruct (inRecs _); [apply Bd_ret; [exact I|..]; lia|].
  bnd ltac:(apply Bd_lift with (Q := any); intros; exact I). intros l2 _. apply Bd_ret; [exact I|..]; lia.
Qed.
Lemma fill_sub_len l : forall vs vs' l', fill_sub G l vs = Ok (vs', l') -> (length l' <= length l)%nat /\ (zlen vs <= g_maxvec G - 3 -> l <> [] -> (length l' < length l)%nat).
Proof.
  induction l as [|x l IH]; intros vs vs' l' H; cbn [fill_sub] in H.
  - assert (l' = []) as -> by congruence. cbn [length]. split; [lia|congruence].
  - destruct (zlen vs <=? g_maxvec G - 3) eqn:E; [|assert (l' = x :: l) as -> by congruence; split; [lia|lia]].
    destruct (encodedString _ _) as [e|]; [|discriminate]. cbn [rbind] in H. cbv zeta in H. unfold rassert in H. destruct (zlen (_ ++ _) <=? _); [|discriminate].
    apply IH in H. destruct H as (H1 & _). cbn [length]. split; [lia|]. intros _ _. lia.
Qed.
Lemma fill_unsub_len l : forall vs vs' l', fill_unsub G l vs = Ok (vs', l') -> (length l' <= length l)%nat /\ (zlen vs <= g_maxvec G - 2 -> l <> [] -> (length l' < length l)%nat).
Proof.
  induction l as [|x l IH]; intros vs vs' l' H; cbn [fill_unsub] in H.
  - assert (l' = []) as -> by congruence. cbn [length]. split; [lia|congruence].
  - destruct (zlen vs <=? g_maxvec G - 2) eqn:E; [|assert (l' = x :: l) as -> by congruence; split; [lia|lia]].
    destruct (encodedString _ _) as [e|]; [|discriminate]. cbn [rbind] in H. cbv zeta in H. unfold rassert in H. destruct (zlen (_ ++ _) <=? _); [|discriminate].
    apply IH in H. destruct H as (H1 & _). cbn [length]. split; [lia|]. intros _ _. lia.
Qed.
Lemma Bd_sub_loop fuel : forall l vs k, 3 <= g_maxvec G -> k = zlen l + (match vs with [] => 0 | _ => 1 end) -> k < Z.of_nat fuel ->
  Bd (sub_send_loop G fuel l vs) any (k * msg_sends G) 0 (k * msg_times G).
Proof.
  facts. induction fuel as [|fuel IH]; intros l vs k Hm Hk Hf; [unfold zlen in Hk; destruct vs; lia|]. cbn [sub_send_loop].
  destruct l as [|x l]; [apply Bd_ret; [exact I|..]; unfold zlen in Hk; cbn [length] in Hk; destruct vs; nia|].
  assert (Hk1 : 1 <= k) by (unfold zlen in Hk; cbn [length] in Hk; destruct vs; lia).
  bnd ltac:(apply Bd_lift with (Q := fun r => fill_sub G (x :: l) vs = Ok r); auto). intros (vs', l') E.
  bnd ltac:(apply Bd_sendv). intros r _. destruct (negb _); [apply Bd_ret; [exact I|..]; nia|].
  apply fill_sub_len in E. destruct E as (E1 & E2). assert (Hl : zlen l' + 1 <= k).
  { destruct vs as [|v vs]; [specialize (E2 ltac:(unfold zlen; cbn [length]; lia) ltac:(congruence))|]; unfold zlen in *; cbn [length] in *; lia. }
  eapply Bd_le; [apply (IH l' [] (zlen l')); try lia|..]; nia.
Qed.
Lemma Bd_unsub_loop fuel : forall l vs k, 2 <= g_maxvec G -> k = zlen l + (match vs with [] => 0 | _ => 1 end) -> k < Z.of_nat fuel ->
  Bd (unsub_send_loop G fuel l vs) any (k * msg_sends G) 0 (k * msg_times G).
Proof.
  facts. induction fuel as [|fuel IH]; intros l vs k Hm Hk Hf; [unfold zlen in Hk; destruct vs; lia|]. cbn [unsub_send_loop].
  destruct l as [|x l]; [apply Bd_ret; [exact I|..]; unfold zlen in Hk; cbn [length] in Hk; destruct vs; nia|].
  assert (Hk1 : 1 <= k) by (unfold zlen in Hk; cbn [length] in Hk; destruct vs; lia).
  bnd ltac:(apply Bd_lift with (Q := fun r => fill_unsub G (x :: l) vs = Ok r); auto). intros (vs', l') E.
  bnd ltac:(apply Bd_sendv). intros r _. destruct (negb _); [apply Bd_ret; [exact I|..]; nia|].
  apply fill_unsub_len in E. destruct E as (E1 & E2). assert (Hl : zlen l' + 1 <= k).
  { destruct vs as [|v vs]; [specialize (E2 ltac:(unfold zlen; cbn [length]; lia) ltac:(congruence))|]; unfold zlen in *; cbn [length] in *; lia. }
  eapply Bd_le; [apply (IH l' [] (zlen l')); try lia|..]; nia.
Qed.
Lemma sub_entries_len l n l' : sub_entries l n = Ok l' -> zlen l' <= Z.max 0 n.
Proof. unfold sub_entries. destruct (_ <=? _); [|discriminate]. intro H. assert (l' = firstn (Z.to_nat n) l) as -> by congruence. unfold zlen. rewrite firstn_length. lia. Qed.
Lemma Bd_subscribe subs n id : Bd (subscribe G subs n id) any ((Z.max 0 n + 1) * msg_sends G) 0 ((Z.max 0 n + 1) * msg_times G).
Proof.
  facts. unfold subscribe. bnd ltac:(apply Bd_validate). intros st _. destruct (status_beq st Success); [|apply Bd_ret; [exact I|..]; nia].
  bnd ltac:(apply Bd_lift with (Q := any); intros; exact I). intros (st2, size) _.
  assert (HR : forall x : status, Bd (ret x) any ((Z.max 0 n + 1) * msg_sends G - 0 - 0) (0 - 0 - 0) ((Z.max 0 n + 1) * msg_times G - 0 - 0)) by (intro; apply Bd_ret; [exact I|..]; nia).
  destruct st2; auto. destruct size as [(rl, sz)|]; auto. destruct subs as [l|]; auto.
  bnd ltac:(apply Bd_getc). intros c _. destruct (status_beq _ _); [|apply Bd_ret; [exact I|..]; nia].
  bnd ltac:(apply Bd_lift with (Q := fun l' => sub_entries l n = Ok l'); auto). intros l' E. apply sub_entries_len in E.
  unfold sendSubscribeWithoutCopy. bnd ltac:(apply Bd_massert). intros u Hm. cbv beta in Hm. clear u.
  bnd ltac:(apply Bd_lift with (Q := any); intros; exact I). intros (h, k) _.
  eapply Bd_le; [apply Bd_sub_loop with (k := zlen l' + 1); [lia|reflexivity|unfold zlen; lia]|..]; nia.
Qed.
Lemma Bd_unsubscribe subs n id : Bd (unsubscribe G subs n id) any ((Z.max 0 n + 1) * msg_sends G) 0 ((Z.max 0 n + 1) * msg_times G).
Proof.
  facts. unfold unsubscribe. bnd ltac:(apply Bd_validate). intros st _. destruct (status_beq st Success); [|apply Bd_ret; [exact I|..]; nia].
  bnd ltac:(apply Bd_lift with (Q := any); intros; exact I). intros (st2, size) _.
  assert (HR : forall x : status, Bd (ret x) any ((Z.max 0 n + 1) * msg_sends G - 0 - 0) (0 - 0 - 0) ((Z.max 0 n + 1) * msg_times G - 0 - 0)) by (intro; apply Bd_ret; [exact I|..]; nia).
  destruct st2; auto. destruct size as [(rl, sz)|]; auto. destruct subs as [l|]; auto.
  bnd ltac:(apply Bd_getc). intros c _. destruct (status_beq _ _); [|apply Bd_ret; [exact I|..]; nia].
  bnd ltac:(apply Bd_lift with (Q := fun l' => sub_entries l n = Ok l'); auto). intros l' E. apply sub_entries_len in E.
  unfold sendUnsubscribeWithoutCopy. bnd ltac:(apply Bd_massert). intros u Hm. cbv beta in Hm. clear u.
  bnd ltac:(apply Bd_lift with (Q := any); intros; exact I). intros (h, k) _.
  eapply Bd_le; [apply Bd_unsub_loop with (k := zlen l' + 1); [lia|reflexivity|unfold zlen; lia]|..]; nia.
Qed.
Lemma Bd_store id vs : Bd (store_publish id vs) any 0 0 0.
Proof.
  intros last s (I1 & I2 & I3 & I4) _ _ _. unfold store_publish. split; [exists last; split; [lia|]; split; [exact I1|]; split; [exact I2|]; split; [exact I3|exact I4]|].
  split; [exact I|]. unfold Used, sendn, recvn, zlen. cbn [s_env env_stores e_sends e_recvs e_times filter length]. lia.
Qed.
Lemma Bd_sendPublish p h hs id : Bd (sendPublishWithoutCopy G p h hs id) any (msg_sends G) 0 (msg_times G).
Proof.
  facts. unfold sendPublishWithoutCopy. bnd ltac:(apply Bd_getc). intros c _.
  apply Bd_bind with (Q := any) (b1 := 0) (r1 := 0) (t1 := 0); [|lia|].
  - destruct (_ && _); [|apply Bd_ret; [exact I|..]; lia].
    destruct (if negb (p_dup p) then _ else _) as ((st, b), ch). cbv zeta.
    apply Bd_bind with (Q := any) (b1 := 0) (r1 := 0) (t1 := 0); [|lia|].
    + destruct (status_beq st Success); [|apply Bd_ret; [exact I|..]; lia].
      bnd ltac:(apply Bd_lift with (Q := any); intros; exact I). intros vs _. bnd ltac:(apply Bd_store). intros ok _. apply Bd_ret; [exact I|..]; lia.
    + intros st2 _. destruct (_ && _); [|apply Bd_ret; [exact I|..]; lia]. destruct (updateDuplicatePublishFlag _ _). apply Bd_ret; [exact I|..]; lia.
  - intros (st, h2) _. destruct (status_beq st Success); [|apply Bd_ret; [exact I|..]; lia].
    bnd ltac:(apply Bd_lift with (Q := any); intros; exact I). intros vs _. bnd ltac:(apply Bd_sendv). intros r _. apply Bd_ret; [exact I|..]; lia.
Qed.
Lemma Bd_publish p id : Bd (publish G p id) any (msg_sends G) 0 (msg_times G).
Proof.
  facts. unfold publish. bnd ltac:(apply Bd_getc). intros c _. destruct (status_beq _ _); [|apply Bd_ret; [exact I|..]; lia].
  assert (HR : forall x : status, Bd (ret x) any (msg_sends G - 0) (0 - 0) (msg_times G - 0)) by (intro; apply Bd_ret; [exact I|..]; lia).
  destruct (getPublishPacketSize p) as (st, size). destruct st; auto. destruct size as [(rl, sz)|]; auto.
  bnd ltac:(apply Bd_lift with (Q := any); intros; exact I). intros (h, hs) _. destruct (status_beq _ _); [|apply Bd_ret; [exact I|..]; lia].
  apply Bd_bind with (Q := any) (b1 := 0) (r1 := 0) (t1 := 0); [|lia|].
  { destruct (negb _); [|apply Bd_ret; [exact I|..]; lia]. bnd ltac:(apply Bd_onrecs; intros; eapply reserve_slots; eauto). intros st _. apply Bd_ret; [exact I|..]; lia. }
  intros st _. apply Bd_bind with (Q := any) (b1 := msg_sends G) (r1 := 0) (t1 := msg_times G); [|lia|].
  { destruct (status_beq st Success); [apply Bd_sendPublish|apply Bd_ret; [exact I|..]; lia]. }
  intros st2 _. destruct (_ && _); [|apply Bd_ret; [exact I|..]; lia].
  bnd ltac:(apply Bd_onrecs; intros; eapply publishApi_slots; eauto). intros (st3, ns) _. apply Bd_ret; [exact I|..]; lia.
Qed.
Lemma Bd_op o : Bd (run_op G o) any (op_msgs o * msg_sends G) 0 (op_msgs o * msg_times G).
Proof.
  facts. destruct o as [p id|subs n id|subs n id| | | |id|]; cbn [run_op op_msgs].
  - eapply Bd_le; [apply Bd_publish|..]; lia.
  - apply Bd_subscribe.
  - apply Bd_unsubscribe.
  - eapply Bd_le; [apply Bd_ping|..]; lia.
  - eapply Bd_le; [apply Bd_disconnect|..]; lia.
  - unfold getPacketId. apply Bd_bind with (Q := any) (b1 := 0) (r1 := 0) (t1 := 0); [|lia|intros; apply Bd_ret; [exact I|..]; lia].
    bnd ltac:(apply Bd_getc). intros c _. bnd ltac:(apply Bd_modc; intros c' E1 E2; split; [exact E1|exact E2]). intros _ _.
    bnd ltac:(apply Bd_emit; reflexivity). intros _ _. apply Bd_ret; [exact I|..]; lia.
  - unfold cancel. bnd ltac:(apply Bd_getc). intros c _. destruct (outRecs _); [|apply Bd_ret; [exact I|..]; lia].
    eapply Bd_le; [apply Bd_onrecs; intros; eapply remove_slots; eauto|..]; lia.
  - unfold checkConnectStatus. bnd ltac:(apply Bd_getc). intros c _. apply Bd_ret; [exact I|..]; lia.
Qed.
Lemma op_msgs_pos o : 0 <= op_msgs o.
Proof. destruct o; cbn [op_msgs]; lia. Qed.
Lemma ops_msgs_pos l : 0 <= ops_msgs l.
Proof. induction l as [|o l IH]; cbn [ops_msgs fold_right]; [lia|]. pose proof (op_msgs_pos o). unfold ops_msgs in IH. lia. Qed.
Lemma Bd_ops l : Bd (run_ops G l) any (ops_msgs l * msg_sends G) 0 (ops_msgs l * msg_times G).
Proof.
  facts. induction l as [|o l IH]; [apply Bd_ret; [exact I|..]; cbn; lia|]. cbn [run_ops]. pose proof (op_msgs_pos o). pose proof (ops_msgs_pos l).
  assert (E : ops_msgs (o :: l) = op_msgs o + ops_msgs l) by reflexivity. rewrite E.
  bnd ltac:(apply Bd_op). intros st _. eapply Bd_le; [apply IH|..]; lia.
Qed.
Lemma Bd_callback ty data id pub r : Bd (callback G ty data id pub r) any (K * msg_sends G) 0 (K * msg_times G).
Proof.
  facts. unfold callback. bnd ltac:(apply Bd_emit; reflexivity). intros _ _. rewrite !Z.sub_0_r.
  intros last s (I1 & I2 & I3 & I4) Hs Hr Ht. unfold bind at 1. unfold gete. unfold bind at 1.
  set (l := match e_cbs (s_env s) with [] => [] | l :: _ => l end). assert (Hl : ops_msgs l <= K).
  { unfold l. destruct (e_cbs (s_env s)) as [|x r0]; [cbn; lia|]. now inversion I2. }
  set (s1 := mkSt (s_ctx s) (env_cbs (s_env s) (tl (e_cbs (s_env s))))).
  assert (J : Inv last s1).
  { split; [exact I1|]. split; [|split; [exact I3|exact I4]]. unfold s1. cbn [s_env env_cbs e_cbs]. destruct (e_cbs (s_env s)); [constructor|]. now inversion I2. }
  pose proof (Bd_le _ _ _ _ (K * msg_sends G) 0 (K * msg_times G) (Bd_ops l) ltac:(nia) ltac:(lia) ltac:(nia) last s1 J Hs Hr Ht) as HA.
  destruct (run_ops G l s1) as [a s2 u| |]; exact HA.
Qed.

(** ** Handling received packets *)
Lemma Bd_keepAlive : Bd (handleKeepAlive G) any (msg_sends G) 0 (msg_times G + 1).
Proof.
  facts. unfold handleKeepAlive. bnd ltac:(apply Bd_time). intros now _. bnd ltac:(apply Bd_getc). intros c _. cbv zeta.
  destruct (x_waiting c); [apply Bd_ret; [exact I|..]; lia|].
  destruct (_ && _); [eapply Bd_le; [apply Bd_ping|..]; lia|]. destruct (_ && _); [eapply Bd_le; [apply Bd_ping|..]; lia|apply Bd_ret; [exact I|..]; lia].
Qed.
Lemma Bd_incomingPublish ty rem data : Bd (handleIncomingPublish G ty rem data) any ((K + 1) * msg_sends G) 0 ((K + 1) * msg_times G).
Proof.
  facts. unfold handleIncomingPublish. bnd ltac:(apply Bd_lift with (Q := any); intros; exact I). intros (st, d) _.
  assert (HR : forall x : status, Bd (ret x) any ((K + 1) * msg_sends G - 0) (0 - 0) ((K + 1) * msg_times G - 0)) by (intro; apply Bd_ret; [exact I|..]; nia).
  destruct st; auto. destruct d as [(pub, pid)|]; auto.
  bnd ltac:(apply Bd_getc). intros c _. destruct (_ && _); [apply Bd_ret; [exact I|..]; nia|].
  bnd ltac:(apply Bd_onrecs; intros; eapply publishApi_slots; eauto). intros (st, ns) _.
  destruct (if status_beq st Success then _ else _) as ((st2, dup), ns2). cbv zeta. destruct (status_beq st2 Success); [|apply Bd_ret; [exact I|..]; nia].
  apply Bd_bind with (Q := any) (b1 := K * msg_sends G) (r1 := 0) (t1 := K * msg_times G); [|nia|].
  { destruct dup; [apply Bd_ret; [exact I|..]; nia|apply Bd_callback]. }
  intros _ _. eapply Bd_le; [apply Bd_acks|..]; nia.
Qed.
Lemma Bd_publishAcks ty rem data : Bd (handlePublishAcks G ty rem data) any ((K + 1) * msg_sends G) 0 ((K + 1) * msg_times G).
Proof.
  facts. unfold handlePublishAcks. bnd ltac:(apply Bd_lift with (Q := any); intros; exact I). intros ack _.
  bnd ltac:(apply Bd_lift with (Q := any); intros; exact I). intros ((st, pid), x) _. cbv zeta.
  apply Bd_bind with (Q := any) (b1 := 0) (r1 := 0) (t1 := 0); [|nia|].
  { destruct (status_beq st Success); [apply Bd_onrecs; intros; eapply ackApi_slots; eauto|apply Bd_ret; [exact I|..]; lia]. }
  intros (st2, ns) _. bnd ltac:(apply Bd_getc). intros c _.
  apply Bd_bind with (Q := any) (b1 := 0) (r1 := 0) (t1 := 0); [|nia|].
  { destruct (_ && _ && _); [apply Bd_emit; reflexivity|apply Bd_ret; [exact I|..]; lia]. }
  intros _ _. destruct (status_beq st2 Success); [|apply Bd_ret; [exact I|..]; nia].
  bnd ltac:(apply Bd_callback). intros _ _. eapply Bd_le; [apply Bd_acks|..]; nia.
Qed.
Lemma Bd_incomingAck ty rem data mk : Bd (handleIncomingAck G ty rem data mk) any ((K + 1) * msg_sends G) 0 ((K + 1) * msg_times G).
Proof.
  facts. unfold handleIncomingAck. destruct (_ || _); [apply Bd_publishAcks|].
  apply Bd_bind with (Q := any) (b1 := 0) (r1 := 0) (t1 := 0); [|nia|].
  - destruct (ty =? PKT_PINGRESP).
    + bnd ltac:(apply Bd_lift with (Q := any); intros; exact I). intros ((st, pid), x) _.
      apply Bd_bind with (Q := any) (b1 := 0) (r1 := 0) (t1 := 0); [|lia|].
      { destruct (_ && _); [apply Bd_modc; intros c' E1 E2; split; [exact E1|exact E2]|apply Bd_ret; [exact I|..]; lia]. }
      intros _ _. apply Bd_ret; [exact I|..]; lia.
    + destruct (_ || _); [|apply Bd_ret; [exact I|..]; lia]. bnd ltac:(apply Bd_lift with (Q := any); intros; exact I). intros ((st, pid), x) _. apply Bd_ret; [exact I|..]; lia.
  - intros ((st, id), inv) _. destruct inv; [|apply Bd_ret; [exact I|..]; nia]. bnd ltac:(apply Bd_callback). intros _ _. apply Bd_ret; [exact I|..]; nia.
Qed.
Lemma Bd_shift total : 0 <= total -> Bd (shift_buffer G total) any 0 0 0.
Proof.
  intros Ht last s (I1 & I2 & I3 & I4 & I5) _ _ _. unfold shift_buffer. unfold bind at 1. unfold modc at 1. unfold bind at 1. unfold getc. cbn [s_ctx].
  unfold bind at 1. unfold massert. destruct (_ <=? _) eqn:E; [|exact I]. cbn [ret]. unfold modc. cbn [app].
  cbn [set_index x_index x_buf] in E. split; [|split; [exact I|unfold Used, sendn, recvn, zlen; cbn [s_env filter length]; lia]].
  exists last. split; [lia|]. split; [exact I1|]. split; [exact I2|]. unfold ctx_ok. cbn [s_ctx set_buf set_index x_buf x_recs x_index] in *.
  assert (Hi : 0 <= (x_index (s_ctx s) - total) mod g_M G) by (apply Z.mod_pos_bound; lia).
  split; [|split; [exact I4|lia]]. rewrite store_at_len; [exact I3|lia|]. unfold sub, zlen in *. rewrite firstn_length, skipn_length. lia.
Qed.


(** ** Headers *)
Lemma process_len_bound fuel : forall buf i a m k st rl n, processRemainingLength_loop fuel buf i a m k = Ok (st, rl, n) ->
  0 <= a < m -> 0 <= k -> (m = 1 /\ k = 0 \/ m = 128 /\ k = 1 \/ m = 16384 /\ k = 2 \/ m = 2097152 /\ k = 3 \/ m = 268435456 /\ k = 4) ->
  status_beq st Success = true -> 0 <= rl <= 268435455 /\ 0 <= n <= 4.
Proof.
  induction fuel as [|fuel IH]; intros buf i a m k st rl n H Ha Hk Hm Hs; cbn [processRemainingLength_loop] in H; [discriminate|].
  destruct (2097152 <? m) eqn:E; [assert (st = BadResponse) as -> by congruence; discriminate|].
  destruct (k + 1 <? i) eqn:E1; [|assert (st = NeedMoreBytes) as -> by congruence; discriminate].
  destruct (rd buf (k + 1)) as [b|]; [|discriminate]. cbn [rbind] in H. cbv zeta in H.
  assert (Hb : 0 <= Z.land b 127 <= 127) by (change 127 with (Z.ones 7); rewrite Z.land_ones by lia; pose proof (Z.mod_pos_bound b (2 ^ 7)); change (Z.ones 7) with 127; change (2 ^ 7) with 128 in *; lia).
  assert (Ha2 : 0 <= a + Z.land b 127 * m < m * 128) by nia.
  destruct (_ =? REMAINING_LENGTH_INVALID); [assert (rl = a + Z.land b 127 * m /\ n = k + 1) as (-> & ->) by (split; congruence); lia|].
  destruct (negb _); [eapply IH in H; eauto; lia|assert (rl = a + Z.land b 127 * m /\ n = k + 1) as (-> & ->) by (split; congruence); lia].
Qed.
Lemma process_header_bound buf i st t rl hl : processIncomingPacketTypeAndLength buf i = Ok (st, Some (t, rl, hl)) -> 0 <= rl <= 268435455 /\ 0 <= hl <= 5.
Proof.
  unfold processIncomingPacketTypeAndLength, processRemainingLength. destruct (i <? 1); [discriminate|]. destruct (rd buf 0) as [ty|]; [|discriminate]. cbn [rbind].
  destruct (incomingPacketValid ty); [|discriminate]. destruct (processRemainingLength_loop 5 buf i 0 1 0) as [((st0, r0), n0)|] eqn:E; [|discriminate]. cbn [rbind].
  destruct (status_beq st0 Success) eqn:Es; [|discriminate]. destruct (negb _); cbn [rbind]; [discriminate|]. intro H.
  assert (rl = r0 /\ hl = n0 + 1) as (-> & ->) by (split; congruence). eapply process_len_bound in E; eauto; lia.
Qed.
Definition pulls (m : Z) : Z := if 2097152 <? m then 0 else if 16384 <? m then 1 else if 128 <? m then 2 else if 1 <? m then 3 else 4.
Lemma pull_step last s t : Inv last s -> 1 <= zlen (e_recvs (s_env s)) ->
  exists r b s' u, pull_recv (s, t, false) = (r, b, (s', t ++ u, false)) /\ Inv last s' /\ Used s s' u 0 1 0.
Proof.
  intros (I1 & I2 & I3 & I4) Hr. unfold pull_recv, trecv. destruct (e_recvs (s_env s)) as [|a r] eqn:E; [unfold zlen in Hr; cbn in Hr; lia|].
  destruct (a <? 0).
  - eexists _, _, _, _. split; [reflexivity|]. split; [split; [exact I1|]; split; [exact I2|]; split; [exact I3|exact I4]|].
    unfold Used. cbn [s_env env_recv e_sends e_recvs e_times]. rewrite E, zlen_cons'. unfold sendn, recvn, zlen. cbn [filter length]. lia.
  - eexists _, _, _, _. split; [reflexivity|]. split; [split; [exact I1|]; split; [exact I2|]; split; [exact I3|exact I4]|].
    unfold Used. cbn [s_env env_recv e_sends e_recvs e_times]. rewrite E, zlen_cons'. unfold sendn, recvn, zlen. cbn [filter length]. lia.
Qed.
Lemma Used_trans s s1 s2 t u b r x b' r' x' : Used s s1 t b r x -> Used s1 s2 u b' r' x' -> Used s s2 (t ++ u) (b + b') (r + r') (x + x').
Proof. intros (U1 & U2 & U3 & U4 & U5) (V1 & V2 & V3 & V4 & V5). unfold Used. rewrite sendn_app, recvn_app. lia. Qed.
Lemma Used_refl s r : 0 <= r -> Used s s [] 0 r 0.
Proof. intro H. unfold Used. change (sendn []) with 0. change (recvn []) with 0. lia. Qed.
Lemma pull_length fuel : forall last s t a m k, Inv last s -> pulls m <= zlen (e_recvs (s_env s)) -> 0 <= a < m -> 
  match getRemainingLength_loop pull_recv fuel (s, t, false) a m k with
  | Ok (rl, k', (s', t', ov)) => ov = false /\ (rl = REMAINING_LENGTH_INVALID \/ 0 <= rl <= 268435455) /\ Inv last s' /\ exists u, t' = t ++ u /\ Used s s' u 0 (pulls m) 0
  | Ub => True
  end.
Proof.
  induction fuel as [|fuel IH]; intros last s t a m k HI Hr Ha; cbn [getRemainingLength_loop]; [exact I|].
  assert (HP : 0 <= pulls m) by (unfold pulls; repeat destruct (_ <? _); lia).
  destruct (2097152 <? m) eqn:E.
  { split; [reflexivity|]. split; [now left|]. split; [exact HI|]. exists []. rewrite app_nil_r. split; [reflexivity|now apply Used_refl]. }
  assert (HP1 : 1 + pulls (m * 128) <= pulls m).
  { unfold pulls. rewrite E. destruct (16384 <? m) eqn:E1; [replace (2097152 <? m * 128) with true by lia; lia|].
    destruct (128 <? m) eqn:E2; [replace (16384 <? m * 128) with true by lia; destruct (2097152 <? m * 128); lia|].
    destruct (1 <? m) eqn:E3; [replace (128 <? m * 128) with true by lia; destruct (2097152 <? m * 128), (16384 <? m * 128); lia|].
    replace (1 <? m * 128) with true by lia. destruct (2097152 <? m * 128), (16384 <? m * 128), (128 <? m * 128); lia. }
  assert (HP2 : 0 <= pulls (m * 128)) by (unfold pulls; repeat destruct (_ <? _); lia).
  destruct (pull_step last s t HI ltac:(lia)) as (r & b & s1 & u & -> & I1 & U1).
  assert (Hb : 0 <= Z.land b 127 <= 127) by (change 127 with (Z.ones 7); rewrite Z.land_ones by lia; pose proof (Z.mod_pos_bound b (2 ^ 7)); change (Z.ones 7) with 127; change (2 ^ 7) with 128 in *; lia).
  assert (Ha2 : 0 <= a + Z.land b 127 * m < m * 128) by nia.
  assert (U1' : Used s s1 u 0 (pulls m) 0) by (destruct U1 as (V1 & V2 & V3 & V4 & V5); unfold Used; lia).
  destruct (r =? 1); [|split; [reflexivity|]; split; [now left|]; split; [exact I1|]; exists u; split; [reflexivity|exact U1']].
  cbv zeta. destruct (_ =? REMAINING_LENGTH_INVALID); [split; [reflexivity|]; split; [right; lia|]; split; [exact I1|]; exists u; split; [reflexivity|exact U1']|].
  destruct (negb _); [|split; [reflexivity|]; split; [right; lia|]; split; [exact I1|]; exists u; split; [reflexivity|exact U1']].
  destruct U1 as (V1 & V2 & V3 & V4 & V5). pose proof (recvn_pos u).
  specialize (IH last s1 (t ++ u) (a + Z.land b 127 * m) (m * 128) (k + 1) I1 ltac:(lia) Ha2).
  destruct (getRemainingLength_loop _ _ _ _ _ _) as [((rl, k'), ((s2, t2), ov))|]; [|exact I]. destruct IH as (-> & Hl & I2 & (u2 & -> & U2)).
  split; [reflexivity|]. split; [exact Hl|]. split; [exact I2|]. exists (u ++ u2). split; [now rewrite app_assoc|].
  destruct U2 as (W1 & W2 & W3 & W4 & W5). unfold Used. rewrite sendn_app, recvn_app. lia.
Qed.
Definition hdr_ok (r : status * option (Z * Z)) : Prop := match snd r with Some (_, rl) => 0 <= rl <= 268435455 | None => True end.
Lemma At_header last s : Inv last s -> 5 <= zlen (e_recvs (s_env s)) ->
  match getIncomingHeader s with Ret r s' t => Inv last s' /\ hdr_ok r /\ Used s s' t 0 5 0 | Undef => True | Stuck => False end.
Proof.
  intros HI Hr. unfold getIncomingHeader, getIncomingPacketTypeAndLength.
  destruct (pull_step last s [] HI ltac:(lia)) as (r & b & s1 & u & -> & I1 & U1). cbn [app].
  destruct U1 as (V1 & V2 & V3 & V4 & V5). pose proof (recvn_pos u).
  assert (UU : Used s s1 u 0 5 0) by (unfold Used; lia).
  destruct (r =? 1); [|destruct (r =? 0); split; [exact I1|split; [exact I|exact UU]|exact I1|split; [exact I|exact UU]]].
  destruct (incomingPacketValid b); [|split; [exact I1|split; [exact I|exact UU]]].
  unfold getRemainingLength. pose proof (pull_length 5 last s1 u 0 1 0 I1) as P. change (pulls 1) with 4 in P. specialize (P ltac:(lia) ltac:(lia)).
  destruct (getRemainingLength_loop _ _ _ _ _ _) as [((rl, k'), ((s2, t2), ov))|]; [|exact I]. destruct P as (-> & Hl & I2 & (u2 & -> & (W1 & W2 & W3 & W4 & W5))).
  cbn [rbind].
  assert (UV : Used s s2 (u ++ u2) 0 5 0) by (unfold Used; rewrite sendn_app, recvn_app; lia).
  destruct (negb (rl =? REMAINING_LENGTH_INVALID) && negb _) eqn:E; cbn [rbind].
  - rewrite Z.eqb_refl. split; [exact I2|split; [exact I|exact UV]].
  - destruct (rl =? REMAINING_LENGTH_INVALID) eqn:E2; (split; [exact I2|split; [|exact UV]]); [exact I|]. cbn [hdr_ok snd]. lia.
Qed.

(** ** One pass of the receive loop *)
Lemma recv_into_index off n s r s' t : recv_into off n s = Ret r s' t -> x_index (s_ctx s') = x_index (s_ctx s).
Proof.
  unfold recv_into. unfold bind at 1. unfold getc. unfold massert. destruct (_ && _ && _); [|discriminate].
  unfold bind at 1. cbn [ret]. unfold bind at 1. unfold trecv. destruct (e_recvs (s_env s)) as [|a r0]; [discriminate|].
  destruct (a <? 0); unfold bind, modc, ret; intro H; injection H as _ <- _; reflexivity.
Qed.
Lemma Bd_use {A} (m : Mo A) Q bs br bt last s : Bd m Q bs br bt -> Inv last s ->
  bs <= zlen (e_sends (s_env s)) -> br <= zlen (e_recvs (s_env s)) -> bt <= zlen (e_times (s_env s)) -> At last s (m s) Q bs br bt.
Proof. intros H. apply H. Qed.
Definition pass_times : Z := (K + 2) * msg_times G + largest * (polls G + 1) + 2.
Lemma Bd_single mk : Bd (receiveSingleIteration G mk) any ((K + 2) * msg_sends G) (1 + largest * polls G) pass_times.
Proof.
  facts. assert (L0 : 0 <= largest) by (unfold largest; lia). assert (LP : 0 <= largest * polls G) by nia.
  assert (M0 : 0 <= K * msg_sends G) by nia. assert (M1 : 0 <= K * msg_times G) by nia. destruct HM as (HM1 & HM2).
  intros last s HI Hs Hr Ht. unfold receiveSingleIteration. unfold bind at 1. unfold getc at 1.
  match goal with |- At _ _ (match ?m with _ => _ end) _ _ _ _ => assert (HA : At last s m any ((K + 2) * msg_sends G) (1 + largest * polls G) pass_times) end.
  2: { match goal with |- At _ _ (match ?m with _ => _ end) _ _ _ _ => destruct m; exact HA end. }
  set (c := s_ctx s) in *. pose proof HI as (_ & _ & J3 & J4 & J5). fold c in J3, J4, J5.
  eapply At_step with (P := fun r s1 t => Inv last s1 /\ r <= B - x_index c /\ Used s s1 t 0 1 0 /\ x_index (s_ctx s1) = x_index c).
  { rewrite Z.mod_small by lia. pose proof (At_recv_into (x_index c) (zlen (x_buf c) - x_index c) last s HI ltac:(lia)) as HA.
    destruct (recv_into _ _ s) as [r s1 t| |] eqn:E; [|exact I|exact HA]. destruct HA as (A1 & A2 & A3). apply recv_into_index in E. split; [exact A1|]. split; [lia|]. split; [exact A3|exact E]. }
  intros r s1 u1 (I1 & Hr1 & U1 & Ei). exists last, 0, 1, 0. split; [lia|]. split; [exact U1|]. destruct U1 as (U11 & U12 & U13 & U14 & U15).
  pose proof (sendn_pos u1). pose proof (recvn_pos u1).
  eapply At_bind with (Q := fun h : status * Z * Z * Z => let '(_, _, rem, hdr) := h in 0 <= rem <= 268435455 /\ 0 <= hdr <= 5) (b1 := 0) (r1 := 0) (t1 := 0).
  { destruct (r <? 0) eqn:Er.
    - eapply Bd_bind with (Q := any) (b1 := 0) (r1 := 0) (t1 := 0); [apply Bd_modc; apply transport_broke_frame|lia| |exact I1|apply zlen_pos'..].
      intros _ _. apply Bd_ret; lia.
    - destruct (_ && _); [apply Bd_ret; [lia|lia|lia|lia|exact I1|apply zlen_pos'..]|].
      eapply At_step with (P := fun _ s2 t => Inv last s2 /\ Used s1 s2 t 0 0 0).
      + unfold modc. destruct I1 as (K1 & K2 & K3 & K4 & K5). split; [|unfold Used, sendn, recvn, zlen; cbn [s_env filter length]; lia].
        split; [exact K1|]. split; [exact K2|]. split; [exact K3|]. split; [exact K4|]. cbn [s_ctx set_index x_index]. rewrite Ei, Z.mod_small by lia. lia.
      + intros _ s2 u2 (I2 & U2). exists last, 0, 0, 0. split; [lia|]. split; [exact U2|]. destruct U2 as (V1 & V2 & V3 & V4 & V5). pose proof (sendn_pos u2). pose proof (recvn_pos u2).
        eapply Bd_bind with (Q := any) (b1 := 0) (r1 := 0) (t1 := 0); [eapply Bd_weak; [apply Bd_getc|..]; try lia; intros; exact I|lia| |exact I2|apply zlen_pos'..].
        intros c2 _. bnd ltac:(apply Bd_lift with (Q := fun x => processIncomingPacketTypeAndLength (x_buf c2) (x_index c2) = Ok x); auto).
        intros (st, h) E. apply Bd_ret; [|lia..]. destruct h as [((ty, rl), hl)|]; [|lia]. now apply process_header_bound in E. }
  intros (((st, ty), rem), hdr) l2 s2 u2 L2 _ I2 (Q1 & Q2) (V1 & V2 & V3 & V4 & V5). cbv zeta. pose proof (sendn_pos u2). pose proof (recvn_pos u2).
  apply Bd_use; [|exact I2|unfold pass_times in *; lia..].
  apply Bd_bind with (Q := any) (b1 := msg_sends G) (r1 := 0) (t1 := msg_times G + 1); [|unfold pass_times; nia|].
  { destruct (_ && _); [|apply Bd_ret; [exact I|..]; lia]. bnd ltac:(apply Bd_keepAlive). intros k _. apply Bd_ret; [exact I|..]; lia. }
  intros st2 _. unfold pass_times. bnd ltac:(apply Bd_getc). intros c2 (D1 & D2 & D3).
  apply Bd_bind with (Q := any) (b1 := 0) (r1 := largest * polls G) (t1 := largest * (polls G + 1)); [|unfold pass_times; nia|].
  { destruct (negb _); [apply Bd_ret; [exact I|..]; nia|]. destruct (zlen (x_buf c2) <? rem + hdr) eqn:E; [apply Bd_discardStoredPacket; unfold largest; lia|].
    destruct (x_index c2 <? rem + hdr); apply Bd_ret; try exact I; nia. }
  intros st3 _. apply Bd_bind with (Q := any) (b1 := (K + 1) * msg_sends G) (r1 := 0) (t1 := (K + 1) * msg_times G + 1); [|unfold pass_times; nia|].
  - destruct (status_beq st3 Success); [|apply Bd_ret; [exact I|..]; nia]. bnd ltac:(apply Bd_getc). intros c3 _.
    bnd ltac:(apply Bd_emit; reflexivity). intros _ _.
    apply Bd_bind with (Q := any) (b1 := (K + 1) * msg_sends G) (r1 := 0) (t1 := (K + 1) * msg_times G); [|nia|].
    { destruct (_ =? PKT_PUBLISH); [apply Bd_incomingPublish|apply Bd_incomingAck]. }
    intros st4 _. bnd ltac:(apply Bd_shift; lia). intros _ _. apply Bd_bind with (Q := any) (b1 := 0) (r1 := 0) (t1 := 1); [|nia|].
    { destruct (status_beq st4 Success); [|apply Bd_ret; [exact I|..]; lia]. bnd ltac:(apply Bd_time). intros now _.
      eapply Bd_le; [apply Bd_modc; intros c' E1 E2; split; [exact E1|exact E2]|..]; lia. }
    intros _ _. apply Bd_ret; [exact I|..]; nia.
  - intros st4 _. apply Bd_ret; [exact I|..]; unfold pass_times; nia.
Qed.


(** ** Connecting *)
Lemma At_connack fuel : forall tmo t0 lc a last s, Inv last s ->
  (0 < tmo /\ a = tmo - (last - t0) /\ 0 <= last - t0 < tmo /\ tmo + D < 4294967296 \/ tmo <= 0 /\ a = g_retry G - lc + 1 /\ 0 <= lc <= g_retry G) ->
  5 * a <= zlen (e_recvs (s_env s)) -> a <= zlen (e_times (s_env s)) -> a < Z.of_nat fuel ->
  At last s (connack_loop G fuel tmo (u32 t0) lc s) hdr_ok 0 (5 * a) a.
Proof.
  pose proof HC as (C1 & C2 & C3 & C4 & C5 & C6).
  induction fuel as [|fuel IH]; intros tmo t0 lc a last s HI Ha Hr Ht Hf; [lia|]. cbn [connack_loop]. assert (A1 : 1 <= a) by lia.
  eapply At_step; [apply (At_header last s HI); lia|]. cbv beta.
  intros (st, h) s1 u1 (I1 & Qh & U1). exists last, 0, 5, 0. split; [lia|]. split; [exact U1|]. destruct U1 as (U11 & U12 & U13 & U14 & U15). pose proof (recvn_pos u1). pose proof (sendn_pos u1).
  destruct (0 <? tmo) eqn:Et.
  - destruct Ha as [(T1 & T2 & T3 & T4)|]; [|lia].
    eapply At_step with (P := fun r s2 t => exists x, 1 <= x - last <= D /\ Inv x s2 /\ r = (tmo <=? x - t0, lc) /\ Used s1 s2 t 0 0 1).
    { destruct (At_time last s1 I1 ltac:(lia)) as (x & s2 & E & Tx & I2 & Ec & E1 & E2 & E3). unfold bind at 1. rewrite E. cbn [ret app].
      exists x. split; [exact Tx|]. split; [exact I2|]. split; [rewrite elapsed_plain by lia; reflexivity|]. unfold Used. change (sendn []) with 0. change (recvn []) with 0. rewrite E1, E2. lia. }
    intros r s2 u2 (x & Tx & I2 & -> & U2). exists x, 0, 0, 1. split; [lia|]. split; [exact U2|]. destruct U2 as (V1 & V2 & V3 & V4 & V5). pose proof (recvn_pos u2). pose proof (sendn_pos u2).
    destruct (_ && _) eqn:Es; [|apply Bd_use; [apply Bd_ret; [exact Qh|lia..]|exact I2|try lia; apply zlen_pos'..]; lia].
    assert (Ex : (tmo <=? x - t0) = false) by (destruct (tmo <=? x - t0); [rewrite andb_false_r in Es; discriminate|reflexivity]).
    eapply At_weak; [apply (IH tmo t0 lc (tmo - (x - t0)) x s2 I2)|auto|..]; try lia.
  - destruct Ha as [|(T1 & T2 & T3)]; [lia|].
    eapply At_step with (P := fun r s2 t => s2 = s1 /\ t = [] /\ r = (g_retry G <=? lc, u16 (lc + 1))); [cbn [ret]; auto|].
    intros r s2 u2 (-> & -> & ->). exists last, 0, 0, 0. split; [lia|]. split; [apply Used_refl; lia|].
    destruct (_ && _) eqn:Es; [|apply Bd_use; [apply Bd_ret; [exact Qh|lia..]|exact I1|try lia; apply zlen_pos'..]; lia].
    assert (Ex : (g_retry G <=? lc) = false) by (destruct (g_retry G <=? lc); [rewrite andb_false_r in Es; discriminate|reflexivity]).
    eapply At_weak; [apply (IH tmo t0 (u16 (lc + 1)) (g_retry G - lc) last s1 I1)|auto|..]; try lia.
    right. unfold u16. rewrite Z.mod_small by lia. lia.
Qed.
Lemma Bd_receiveConnack tmo clean : 0 <= tmo -> tmo + D < 4294967296 ->
  Bd (receiveConnack G tmo clean) any 0 (5 * attempts G tmo + largest * polls G) (attempts G tmo + largest * (polls G + 2) + 3).
Proof.
  facts. intros T0 T1. pose proof HC as (C1 & C2 & C3 & C4 & C5 & C6). assert (L0 : 0 <= largest) by (unfold largest; lia). assert (LP : 0 <= largest * polls G) by nia.
  intros last s HI Hs Hr Ht. unfold receiveConnack. assert (A0 : 1 <= attempts G tmo) by (unfold attempts; destruct (0 <? tmo) eqn:E; lia).
  apply At_bind_time; [exact HI|lia|]. intros x s1 Tx I1 _ E1 E2 E3. unfold bind at 1. unfold gete at 1.
  match goal with |- At _ _ (match ?m with _ => _ end) _ ?a ?b ?c => assert (HA : At x s1 m any a b c) end.
  2: { match goal with |- At _ _ (match ?m with _ => _ end) _ _ _ _ => destruct m; exact HA end. }
  eapply At_bind with (Q := hdr_ok) (b1 := 0) (r1 := 5 * attempts G tmo) (t1 := attempts G tmo).
  { apply At_connack; [exact I1| |lia..|unfold zlen in E2; rewrite Nat2Z.inj_succ; unfold zlen in Hr; lia]. unfold attempts. destruct (0 <? tmo) eqn:E; lia. }
  intros (st, h) l2 s2 u2 L2 _ I2 Qh (V1 & V2 & V3 & V4 & V5). pose proof (recvn_pos u2). pose proof (sendn_pos u2).
  apply Bd_use; [|exact I2|lia..].
  assert (HR : forall r : status * option bool, Bd (ret r) any (0 - 0) (5 * attempts G tmo + largest * polls G - 5 * attempts G tmo) (attempts G tmo + largest * (polls G + 2) + 3 - 1 - attempts G tmo)) by (intro; apply Bd_ret; [exact I|..]; nia).
  destruct st; auto. destruct h as [(ty, rl)|]; auto. cbn [hdr_ok snd] in Qh.
  bnd ltac:(apply Bd_time). intros now _. cbv zeta.
  apply Bd_bind with (Q := any) (b1 := 0) (r1 := largest * polls G) (t1 := largest * (polls G + 2) + 1); [|nia|].
  { destruct (ty =? PKT_CONNACK); [apply Bd_receivePacket; unfold largest; lia|apply Bd_ret; [exact I|..]; nia]. }
  intros st2 _. destruct (status_beq st2 Success); [|apply Bd_ret; [exact I|..]; nia].
  bnd ltac:(apply Bd_getc). intros c _. bnd ltac:(apply Bd_lift with (Q := any); intros; exact I). intros ((st3, x3), sp) _. apply Bd_ret; [exact I|..]; nia.
Qed.
Lemma select_cursor l mask : forall cur, (fst (select_loop l mask cur) = 0 \/ (cur < snd (select_loop l mask cur))%nat) /\ (snd (select_loop l mask cur) <= cur + length l)%nat.
Proof.
  induction l as [|r l IH]; intro cur; cbn [select_loop fst snd length]; [split; [now left|lia]|].
  destruct (in_mask _ _); cbn [fst snd]; [split; [right; lia|lia]|]. specialize (IH (S cur)). split; [destruct IH as ([?|?] & _); [now left|right; lia]|lia].
Qed.
Lemma stateSelect_cursor l mask cur id cur' : stateSelect l mask cur = (id, cur') -> (cur <= length l)%nat -> (id = 0 \/ (cur < cur')%nat) /\ (cur' <= length l)%nat.
Proof.
  unfold stateSelect. intros H L. pose proof (select_cursor (skipn cur l) mask cur) as P. rewrite H in P. cbn [fst snd] in P. rewrite skipn_length in P. destruct P. split; auto. lia.
Qed.
Lemma slots_len c : ctx_ok c -> Z.of_nat (length (arr (outRecs (x_recs c)))) = N.
Proof. intros (H & _). exact H. Qed.
Lemma Bd_pubrel fuel : forall id cur, Z.of_nat cur <= N -> (id = 0 \/ N + 1 - Z.of_nat cur < Z.of_nat fuel) -> (0 < fuel)%nat ->
  Bd (pubrel_loop G fuel id cur) any ((N + 1 - Z.of_nat cur) * msg_sends G) 0 ((N + 1 - Z.of_nat cur) * msg_times G).
Proof.
  facts. induction fuel as [|fuel IH]; intros id cur Hc Hf Hp; [lia|]. cbn [pubrel_loop].
  destruct (id =? 0) eqn:E0; [apply Bd_ret; [exact I|..]; nia|]. destruct Hf as [|Hf]; [lia|].
  bnd ltac:(apply Bd_acks). intros st _. destruct (negb _); [apply Bd_ret; [exact I|..]; nia|].
  bnd ltac:(apply Bd_getc). intros c (_ & Hk). apply slots_len in Hk. destruct (pubrelToResend (x_recs c) cur) as (id2, cur2) eqn:Es.
  apply stateSelect_cursor in Es; [|lia]. destruct Es as (S1 & S2).
  destruct S1 as [->|S1].
  - destruct fuel; [lia|]. cbn [pubrel_loop]. rewrite Z.eqb_refl. apply Bd_ret; [exact I|..]; nia.
  - eapply Bd_le; [apply IH|..]; try lia; nia.
Qed.
Lemma Bd_retrieve id : Bd (retrieve_publish id) any 0 0 0.
Proof.
  intros last s (I1 & I2 & I3 & I4) _ _ _. unfold retrieve_publish. split; [exists last; split; [lia|]; split; [exact I1|]; split; [exact I2|]; split; [exact I3|exact I4]|].
  split; [exact I|]. unfold Used, sendn, recvn, zlen. cbn [s_env env_retrs e_sends e_recvs e_times filter length]. lia.
Qed.
Lemma Bd_publish_loop fuel : forall cur, Z.of_nat cur <= N -> N - Z.of_nat cur < Z.of_nat fuel ->
  Bd (publish_loop G fuel cur) any ((N - Z.of_nat cur) * msg_sends G) 0 ((N - Z.of_nat cur) * msg_times G).
Proof.
  facts. induction fuel as [|fuel IH]; intros cur Hc Hf; [lia|]. cbn [publish_loop].
  bnd ltac:(apply Bd_getc). intros c (_ & Hk). apply slots_len in Hk. destruct (publishToResend (x_recs c) cur) as (id2, cur2) eqn:Es.
  apply stateSelect_cursor in Es; [|lia]. destruct Es as (S1 & S2). destruct (id2 =? 0) eqn:E0; [apply Bd_ret; [exact I|..]; nia|].
  destruct S1 as [|S1]; [lia|]. bnd ltac:(apply Bd_retrieve). intros [bs|] _; [|apply Bd_ret; [exact I|..]; nia].
  bnd ltac:(apply Bd_sendb). intros n _. destruct (negb _); [apply Bd_ret; [exact I|..]; nia|]. eapply Bd_le; [apply IH|..]; try lia; nia.
Qed.
Lemma Bd_clear_loop fuel : forall cur, Z.of_nat cur <= N -> N - Z.of_nat cur < Z.of_nat fuel -> Bd (clear_loop fuel cur) any 0 0 0.
Proof.
  induction fuel as [|fuel IH]; intros cur Hc Hf; [lia|]. cbn [clear_loop].
  bnd ltac:(apply Bd_getc). intros c (_ & Hk). apply slots_len in Hk. destruct (publishToResend (x_recs c) cur) as (id2, cur2) eqn:Es.
  apply stateSelect_cursor in Es; [|lia]. destruct Es as (S1 & S2). destruct (id2 =? 0) eqn:E0; [apply Bd_ret; [exact I|..]; lia|].
  destruct S1 as [|S1]; [lia|]. bnd ltac:(apply Bd_emit; reflexivity). intros _ _. apply IH; lia.
Qed.
Lemma Bd_resume : Bd (handleUncleanSessionResumption G) any ((2 * N + 1) * msg_sends G) 0 ((2 * N + 1) * msg_times G).
Proof.
  facts. unfold handleUncleanSessionResumption.
  destruct (Z.ltb N 0) eqn:EN.
  { intros last s HI. exfalso. destruct HI as (_ & _ & _ & H2 & _). unfold slots, zlen in H2. lia. }
  bnd ltac:(apply Bd_getc). intros c (_ & Hk). apply slots_len in Hk. destruct (pubrelToResend (x_recs c) 0) as (id, cur) eqn:Es.
  apply stateSelect_cursor in Es; [|lia]. destruct Es as (S1 & S2).
  apply Bd_bind with (Q := any) (b1 := (N + 1) * msg_sends G) (r1 := 0) (t1 := (N + 1) * msg_times G); [|nia|].
  { eapply Bd_le; [apply Bd_pubrel|..]; try lia; nia. }
  intros st _. destruct (_ && _); [|apply Bd_ret; [exact I|..]; nia]. eapply Bd_le; [apply Bd_publish_loop|..]; try lia; nia.
Qed.
Lemma Bd_clean : Bd handleCleanSession any 0 0 0.
Proof.
  unfold handleCleanSession. bnd ltac:(apply Bd_modc).
  { intros c' E1 (E2 & E3). unfold ctx_ok. cbn [set_index set_buf x_buf x_recs x_index]. unfold zlen in *. rewrite repeat_length. split; [exact E1|]. split; [exact E2|lia]. }
  intros _ _. bnd ltac:(apply Bd_getc). intros c (_ & Hk). apply slots_len in Hk.
  apply Bd_bind with (Q := any) (b1 := 0) (r1 := 0) (t1 := 0); [|lia|].
  { destruct (x_retr c); [apply Bd_clear_loop; lia|apply Bd_ret; [exact I|..]; lia]. }
  intros _ _. bnd ltac:(apply Bd_modc).
  { intros c' E1 (E2 & E3). unfold ctx_ok. cbn [set_recs x_buf x_recs x_index]. rewrite slots_reset. split; [exact E1|]. split; [exact E2|lia]. }
  intros _ _. apply Bd_ret; [exact I|..]; lia.
Qed.
Lemma Bd_connect ci will tmo : 0 <= N -> 0 <= tmo -> tmo + D < 4294967296 ->
  Bd (connect G ci will tmo) any ((2 * N + 2) * msg_sends G) (5 * attempts G tmo + largest * polls G) ((2 * N + 2) * msg_times G + attempts G tmo + largest * (polls G + 2) + 3).
Proof.
  facts. intros N0 T0 T1. pose proof HC as (C1 & C2 & C3 & C4 & C5 & C6). assert (L0 : 0 <= largest) by (unfold largest; lia). assert (LP : 0 <= largest * polls G) by nia.
  assert (A0 : 1 <= attempts G tmo) by (unfold attempts; destruct (0 <? tmo) eqn:E; lia).
  unfold connect. destruct (getConnectPacketSize ci will) as (st, size).
  apply Bd_bind with (Q := any) (b1 := msg_sends G) (r1 := 5 * attempts G tmo + largest * polls G) (t1 := msg_times G + attempts G tmo + largest * (polls G + 2) + 3); [|nia|].
  - assert (HR : forall r : status * option bool, Bd (ret r) any (msg_sends G) (5 * attempts G tmo + largest * polls G) (msg_times G + attempts G tmo + largest * (polls G + 2) + 3)) by (intro; apply Bd_ret; [exact I|..]; nia).
    destruct st; auto. destruct size as [(rl, sz)|]; auto.
    bnd ltac:(apply Bd_getc). intros c _. cbv zeta.
    apply Bd_bind with (Q := any) (b1 := msg_sends G) (r1 := 0) (t1 := msg_times G); [|nia|].
    { destruct (status_beq _ _); [|apply Bd_ret; [exact I|..]; nia]. unfold sendConnectWithoutCopy. destruct (match will with Some _ => _ | None => _ end); [apply Bd_ret; [exact I|..]; nia|].
      bnd ltac:(apply Bd_lift with (Q := any); intros; exact I). intros vs _. bnd ltac:(apply Bd_sendv). intros r _. apply Bd_ret; [exact I|..]; nia. }
    intros st _. apply Bd_bind with (Q := any) (b1 := 0) (r1 := 5 * attempts G tmo + largest * polls G) (t1 := attempts G tmo + largest * (polls G + 2) + 3); [|nia|].
    { destruct (status_beq _ _); [apply Bd_receiveConnack; lia|apply Bd_ret; [exact I|..]; nia]. }
    intros (st2, sp) _. apply Bd_bind with (Q := any) (b1 := 0) (r1 := 0) (t1 := 0); [|nia|].
    { destruct (_ && _); [apply Bd_clean|apply Bd_ret; [exact I|..]; nia]. }
    intros st3 _. apply Bd_bind with (Q := any) (b1 := 0) (r1 := 0) (t1 := 0); [|nia|].
    { destruct (status_beq _ _); [apply Bd_modc; intros c' E1 E2; split; [exact E1|exact E2]|apply Bd_ret; [exact I|..]; nia]. }
    intros _ _. apply Bd_ret; [exact I|..]; nia.
  - intros (st2, sp) _. apply Bd_bind with (Q := any) (b1 := (2 * N + 1) * msg_sends G) (r1 := 0) (t1 := (2 * N + 1) * msg_times G); [|nia|].
    { destruct (_ && _); [apply Bd_resume|apply Bd_ret; [exact I|..]; nia]. }
    intros st3 _. apply Bd_bind with (Q := any) (b1 := 0) (r1 := 0) (t1 := 0); [|nia|].
    { destruct (_ || _ || _); [apply Bd_ret; [exact I|..]; nia|apply Bd_modc; apply transport_broke_frame]. }
    intros _ _. apply Bd_ret; [exact I|..]; nia.
Qed.
Lemma Bd_call c : 0 <= N -> call_suits D c ->
  Bd (run_call G c) any (call_msgs N K c * msg_sends G) (call_recvs G c) (call_times G N K c).
Proof.
  facts. intros N0 HS. pose proof HC as (C1 & C2 & C3 & C4 & C5 & C6). assert (L0 : 0 <= largest) by (unfold largest; lia). assert (LP : 0 <= largest * polls G) by nia.
  assert (M1 : 0 <= K * msg_times G) by nia. unfold call_times. destruct c as [o|ci will tmo| |]; cbn [run_call call_msgs call_recvs].
  - pose proof (op_msgs_pos o). eapply Bd_le; [apply Bd_op|..]; nia.
  - destruct HS as (HS0 & HS1). assert (A0 : 1 <= attempts G tmo) by (unfold attempts; destruct (0 <? tmo) eqn:E; lia).
    bnd ltac:(apply Bd_connect; lia). intros (st, sp) _. apply Bd_ret; [exact I|..]; nia.
  - unfold processLoop. bnd ltac:(apply Bd_modc; intros c' E1 E2; split; [exact E1|exact E2]). intros _ _. eapply Bd_le; [apply Bd_single|..]; unfold pass_times; nia.
  - eapply Bd_le; [apply Bd_single|..]; unfold pass_times; nia.
Qed.
Lemma call_msgs_pos c : 0 <= N -> 0 <= call_msgs N K c.
Proof. destruct c as [o| | |]; cbn [call_msgs]; [pose proof (op_msgs_pos o)|..]; lia. Qed.
Lemma call_recvs_pos c : call_suits D c -> 0 <= call_recvs G c.
Proof.
  facts. pose proof HC as (C1 & C2 & C3 & C4 & C5 & C6). assert (L0 : 0 <= largest) by (unfold largest; lia).
  destruct c as [o|ci will tmo| |]; cbn [call_recvs call_suits]; intros; try nia. assert (A0 : 1 <= attempts G tmo) by (unfold attempts; destruct (0 <? tmo) eqn:E; lia). nia.
Qed.
Lemma call_times_pos c : 0 <= N -> call_suits D c -> 0 <= call_times G N K c.
Proof. facts. intros N0 H2. pose proof (call_msgs_pos c N0). pose proof (call_recvs_pos c H2). unfold call_times. assert (0 <= match c with COp _ => 0 | _ => 2 * call_recvs G c + largest * 2 + 5 end) by (destruct c; unfold largest; lia). nia. Qed.
Lemma Bd_calls l : 0 <= N -> Forall (call_suits D) l ->
  Bd (run_calls G l) any (calls_sum (call_msgs N K) l * msg_sends G) (calls_sum (call_recvs G) l) (calls_sum (call_times G N K) l).
Proof.
  facts. intros N0 HS. induction HS as [|c l Hc Hl IH]; [apply Bd_ret; [exact I|..]; cbn; lia|]. cbn [run_calls].
  assert (P1 : forall l, 0 <= calls_sum (call_msgs N K) l) by (induction l0 as [|y l0 IHl]; cbn [calls_sum fold_right]; [lia|]; pose proof (call_msgs_pos y N0); unfold calls_sum in IHl; lia).
  assert (P2 : 0 <= calls_sum (call_recvs G) l) by (clear -Hl HC; induction Hl as [|y l0 Hy Hl0 IHl]; cbn [calls_sum fold_right]; [lia|]; pose proof (call_recvs_pos y Hy); unfold calls_sum in IHl; lia).
  assert (P3 : 0 <= calls_sum (call_times G N K) l) by (clear -Hl HC HK N0; induction Hl as [|y l0 Hy Hl0 IHl]; cbn [calls_sum fold_right]; [lia|]; pose proof (call_times_pos y N0 Hy); unfold calls_sum in IHl; lia).
  specialize (P1 l). change (calls_sum ?f (c :: l)) with (f c + calls_sum f l).
  bnd ltac:(apply (Bd_call c); auto). intros st _.
  eapply Bd_bind; [apply IH|nia|]. intros sts _. apply Bd_ret; [exact I|..]; nia.
Qed.
End Time.
