(** Calls in a smooth environment. *)
From Verif Require Import Base StateModel StateSpec StateHarness StateProofs StateProofs2 SerModel WireSpec SerHarness
  CoreModel CoreSpec CoreHarness CoreProofs CoreProofs2 CoreProofs3 CoreProofs5 CoreProofs6 CoreProofs9 CoreProofs12 CoreProofs13 CoreProofs15 CoreProofs16 CoreProofs19 CoreProofs20 CoreProofs21 CoreProofs22 CoreProofs23 CoreProofs24
  CoreFinal CoreFinal2 LifeSpec LifeProofs ConcProofs8 SerProofs SerProofs4 CalmSpec.
From Coq Require Import Sorting.Sorted.

(** ** The state engine and the decoders never say SendFailed *)
Ltac vals H := repeat match type of H with
  | context [if ?b then _ else _] => destruct b
  | context [match ?x with _ => _ end] => destruct x eqn:?
  end; try discriminate; try (injection H; intros; subst; discriminate); try congruence.
Lemma no_sf_add l id q p st l' : addRecord l id q p = Ok (st, l') -> st <> SendFailed.
Proof. unfold addRecord, rbind, rassert. cbv zeta. intro H. vals H. Qed.
Lemma no_sf_ack l i id a b st l' : updateStateAck l i id a b = Ok (st, l') -> st <> SendFailed.
Proof.
  unfold updateStateAck. cbv zeta. intro H. destruct (validateTransitionAck a b); [|congruence]. destruct (pstate_beq a b); [congruence|].
  destruct (updateRecord _ _ _ _) as [l1|]; cbn [rbind] in H; [|discriminate]. destruct (pstate_beq b PubRelSend); [eapply no_sf_add; eauto|congruence].
Qed.
Lemma no_sf_ackapi r id a o st ns r' : updateStateAckApi r id a o = Ok (st, ns, r') -> st <> SendFailed.
Proof.
  unfold updateStateAckApi. cbv zeta. intro H. destruct (id =? 0); [congruence|]. destruct (findInRecord _ _) as [[(i, x)|]|]; cbn [rbind] in H; [|congruence|discriminate].
  destruct (updateStateAck _ _ _ _ _) as [(st1, l)|] eqn:E; cbn [rbind] in H; [|discriminate]. apply no_sf_ack in E. congruence.
Qed.
Lemma no_sf_pubapi r id o q st ns r' : updateStatePublishApi r id o q = Ok (st, ns, r') -> st <> SendFailed.
Proof.
  assert (L : forall i cur new st l, updateStatePublish r i id o q cur new = Ok (st, l) -> st <> SendFailed).
  { clear. intros i cur new st l. unfold updateStatePublish, rassert. destruct (_ && _); [|discriminate]. destruct (validateTransitionPublish _ _ _ _); [|congruence].
    destruct o; [destruct (pstate_beq _ _); [congruence|]; destruct i; [|discriminate]; destruct (updateRecord _ _ _ _); cbn [rbind]; congruence|].
    destruct (addRecord _ _ _ _) as [(st1, l1)|] eqn:E; cbn [rbind]; [|discriminate]. apply no_sf_add in E. congruence. }
  unfold updateStatePublishApi. cbv zeta. destruct q; [congruence|..]; (destruct (id =? 0); [congruence|]); destruct o;
  repeat match goal with
  | |- context [findInRecord ?a ?b] => destruct (findInRecord a b) as [[(? & ?)|]|]; cbn [rbind]; try congruence
  | |- (if ?b then _ else _) = _ -> _ => destruct b; [congruence|]
  | |- context [updateStatePublish ?a ?b ?c ?d ?e ?f ?g] => destruct (updateStatePublish a b c d e f g) as [(? & ?)|] eqn:E; cbn [rbind]; [apply L in E; congruence|discriminate]
  end.
Qed.
Ltac gv := repeat match goal with
  | |- giving _ (Ok _) => apply gv_ok; cbn [fst snd]; solve [discriminate|assumption|repeat match goal with |- (if ?b then _ else _) <> _ => destruct b end; (discriminate || assumption)]
  | |- giving _ Ub => apply gv_ub
  | |- giving _ (rbind _ _) => apply gv_any; intros ?
  | |- giving _ (if ?b then _ else _) => destruct b
  | |- giving _ (match ?x with _ => _ end) => destruct x
  end.
Notation plain1 := (fun p => fst p <> SendFailed).
Lemma sf_connack rem d : giving plain1 (deserializeConnack rem d).
Proof.
  unfold deserializeConnack, rassert. destruct (negb _); [gv|]. apply gv_any. intro b0. destruct (negb _); [gv|]. cbv zeta.
  apply (gv_bind (fun st => st <> SendFailed)); [gv|]. intros st Hst. gv.
Qed.
Lemma sf_suback rem d : giving plain1 (deserializeSuback rem d).
Proof.
  unfold deserializeSuback. destruct (_ <? _); [gv|]. apply gv_any. intro id. destruct (id =? 0); [gv|].
  apply (gv_bind (fun st => st <> SendFailed)); [|intros st Hst; gv]. unfold readSubackStatus.
  assert (L : forall n d off st, st <> SendFailed -> giving (fun st => st <> SendFailed) (readSubackStatus_loop n d off st)).
  { induction n as [|n IH]; intros; cbn [readSubackStatus_loop]; [gv|]. apply gv_any. intro b. cbv zeta.
    set (st1 := if (b =? 0) || (b =? 1) || (b =? 2) then st else _). assert (st1 <> SendFailed) by (subst st1; destruct (_ || _); [auto|destruct (b =? 128); discriminate]). clearbody st1.
    destruct (status_beq _ _); [gv|auto]. }
  apply L. discriminate.
Qed.
Lemma sf_simple rem d : giving plain1 (deserializeSimpleAck rem d).
Proof. unfold deserializeSimpleAck. gv. Qed.
Lemma sf_deser k : giving (fun p => fst (fst p) <> SendFailed) (deserializeAck k).
Proof.
  unfold deserializeAck, deserializePingresp. cbv zeta. destruct (k_data k); [|gv].
  destruct (_ =? _); [apply (gv_bind plain1); [apply sf_connack|]; intros (st, sp) H; cbn [fst] in H; gv|].
  destruct (_ =? _); [apply (gv_bind plain1); [apply sf_suback|]; intros (st, sp) H; cbn [fst] in H; gv|].
  destruct (_ =? _); [gv|]. destruct (_ || _); [|gv]. apply (gv_bind plain1); [apply sf_simple|]; intros (st, sp) H; cbn [fst] in H; gv.
Qed.
Lemma sf_publish M k : giving plain1 (deserializePublishApi M k).
Proof. unfold deserializePublishApi, deserializePublish. gv. Qed.
Lemma sf_header b i : giving plain1 (processIncomingPacketTypeAndLength b i).
Proof.
  unfold processIncomingPacketTypeAndLength. destruct (_ <? _); [gv|]. apply gv_any. intro ty. destruct (incomingPacketValid ty); [|gv].
  apply (gv_bind plain1); [|intros (st, r) H; cbn [fst] in H; gv]. unfold processRemainingLength.
  assert (L : forall n b i x y z, giving (fun p => fst (fst p) <> SendFailed) (processRemainingLength_loop n b i x y z)).
  { induction n as [|n IH]; intros; cbn [processRemainingLength_loop]; [gv|]. cbv zeta. repeat (gv; auto). }
  apply (gv_bind (fun p => fst (fst p) <> SendFailed)); [apply L|]. intros ((st, rl), k) H. cbn [fst] in H. gv.
Qed.
Lemma no_sf_reserve r id q st r' : reserveState r id q = Ok (st, r') -> st <> SendFailed.
Proof.
  unfold reserveState. destruct (qos_beq _ _); [congruence|]. destruct (id =? 0); [congruence|].
  destruct (addRecord _ _ _ _) as [(st1, l)|] eqn:E; cbn [rbind]; [|discriminate]. apply no_sf_add in E. congruence.
Qed.
Lemma no_sf_remove r id st r' : removeStateRecord r id = Ok (st, r') -> st <> SendFailed.
Proof.
  unfold removeStateRecord. destruct (outRecs r); [|congruence]. destruct (findInRecord _ _) as [[(i, x)|]|]; cbn [rbind]; [|congruence|discriminate].
  repeat match goal with |- (if ?b then _ else _) = _ -> _ => destruct b; [congruence|] end. destruct (updateRecord _ _ _ _); cbn [rbind]; congruence.
Qed.
Lemma sf_subsize M l n ty : giving plain1 (calculateSubscriptionPacketSize M l n ty).
Proof.
  assert (L : forall l sz st, st <> SendFailed -> snd (subscription_size_loop M l ty sz st) <> SendFailed).
  { clear. induction l as [|x l IH]; intros; cbn [subscription_size_loop snd]; [assumption|]. apply IH. destruct (_ || _); [discriminate|assumption]. }
  unfold calculateSubscriptionPacketSize, rassert. destruct (negb _); [|gv]. apply gv_any. intro l1.
  specialize (L l1 2 Success). destruct (subscription_size_loop M l1 ty 2 Success) as (sz, st). cbn [snd] in L. cbv zeta.
  destruct (status_beq _ _); [gv|]. apply gv_ok. cbn [fst]. destruct (_ <? _); [discriminate|]. apply L. discriminate.
Qed.
Lemma sf_subsize1 M l n : giving plain1 (getSubscribePacketSize M l n).
Proof. unfold getSubscribePacketSize. gv. apply sf_subsize. Qed.
Lemma sf_subsize2 M l n : giving plain1 (getUnsubscribePacketSize M l n).
Proof. unfold getUnsubscribePacketSize. gv. apply sf_subsize. Qed.
Lemma no_sf_pubsize p st x : getPublishPacketSize p = (st, x) -> st <> SendFailed.
Proof. unfold getPublishPacketSize. intro H. vals H. Qed.
Lemma no_sf_consize p w st x : getConnectPacketSize p w = (st, x) -> st <> SendFailed.
Proof. unfold getConnectPacketSize. intro H. vals H. Qed.

Section Calm.
Variable G : cfg.
Hypothesis Hto : 0 <= g_sendto G < 4294967296.
Notation smooth := (smooth G).
Definition used (s s' : st) : Prop := exists u, e_times (s_env s) = u ++ e_times (s_env s').
Lemma used_trans a b c : used a b -> used b c -> used a c.
Proof. intros (u & E) (v & F). exists (u ++ v). rewrite E, F. apply app_assoc. Qed.
Lemma sorted_prefix (l1 l2 : list Z) : Sorted Z.le (l1 ++ l2) -> Sorted Z.le l1.
Proof.
  induction l1 as [|a l1 IH]; intro H; [constructor|]. cbn in H. inversion H as [|? ? H1 H2]; subst. constructor; [auto|].
  destruct l1; cbn in *; constructor. now inversion H2.
Qed.
Lemma errs_app t u : errs (t ++ u) = errs t || errs u.
Proof. apply existsb_app. Qed.
Lemma within_split B s s1 s2 : used s s1 -> used s1 s2 -> within B s s2 -> within B s s1 /\ within B s1 s2.
Proof.
  intros (v & E) (w & F) (ts & Et & Hs & Hd).
  assert (ts = v ++ w) as -> by (rewrite E, F, app_assoc in Et; now apply app_inv_tail in Et). split.
  - exists v. split; [exact E|]. split; [now apply sorted_prefix in Hs|]. intros x y Hx Hy. apply Hd; apply in_app_iff; auto.
  - exists w. split; [exact F|]. split; [now apply sorted_suffix in Hs|]. intros x y Hx Hy. apply Hd; apply in_app_iff; auto.
Qed.
Lemma smooth_split s s1 s2 t u : used s s1 -> used s1 s2 -> smooth s s2 (t ++ u) -> smooth s s1 t /\ smooth s1 s2 u.
Proof.
  intros U1 U2 (He & Hw). rewrite errs_app in He. apply orb_false_iff in He. destruct He as (He1 & He2).
  destruct (within_split _ _ _ _ U1 U2 Hw). split; split; assumption.
Qed.
(** a value that a smooth run of [m] gives *)
Definition fine {A} (Q : A -> Prop) (m : Mo A) : Prop := forall s a s' t, m s = Ret a s' t -> used s s' /\ (smooth s s' t -> Q a).
Lemma f_weak {A} (P Q : A -> Prop) m : fine P m -> (forall a, P a -> Q a) -> fine Q m.
Proof. intros H K s a s' t E. destruct (H _ _ _ _ E). auto. Qed.
Lemma f_bind {A B} (P : A -> Prop) (Q : B -> Prop) m k : fine P m -> (forall a, fine (fun b => P a -> Q b) (k a)) -> fine Q (bind m k).
Proof.
  intros H K s b s' t E. apply bind_inv in E. destruct E as (a & s1 & t1 & t2 & E1 & E2 & ->).
  destruct (H _ _ _ _ E1) as (U1 & F1). destruct (K _ _ _ _ _ E2) as (U2 & F2). split; [eapply used_trans; eauto|].
  intro C. apply (smooth_split _ _ _ _ _ U1 U2) in C. destruct C. auto.
Qed.
Lemma f_ret {A} (Q : A -> Prop) a : Q a -> fine Q (ret a).
Proof. intros H s b s' t E. apply ret_inv in E. destruct E as (-> & -> & ->). split; [exists []; reflexivity|auto]. Qed.
Lemma f_keeps {A} (m : Mo A) : keeps tx_frame m -> fine (fun _ => True) m.
Proof. intros H s a s' t E. apply H in E. destruct E as (u & E & _). split; [exists u; exact E|auto]. Qed.
Lemma f_lift {A} (Q : A -> Prop) (r : Base.R A) : giving Q r -> fine Q (lift r).
Proof. intros H s a s' t E. apply lift_inv in E. destruct E as (E & -> & ->). split; [exists []; reflexivity|]. intros _. now apply H. Qed.
Lemma f_recs {A} (Q : A -> Prop) (f : recs -> Base.R (A * recs)) : (forall r, giving (fun p => Q (fst p)) (f r)) -> fine Q (on_recs f).
Proof. intros H s a s' t E. apply on_recs_inv in E. destruct E as (c & E & -> & ->). split; [exists []; reflexivity|]. intros _. exact (H _ _ E). Qed.
Lemma f_undef {A} (Q : A -> Prop) : fine Q undef. Proof. discriminate. Qed.
Lemma f_stuck {A} (Q : A -> Prop) : fine Q stuck. Proof. discriminate. Qed.

(** ** Sending *)
Lemma round_time x y l r : Sorted Z.le (x :: l ++ y :: r) -> (forall a b, In a (x :: l ++ y :: r) -> In b (x :: l ++ y :: r) -> b - a < g_sendto G) -> elapsed (u32 y) (u32 x) < g_sendto G.
Proof.
  intros Hs Hd. assert (x <= y).
  { apply (sorted_le [x] (l ++ y :: r)); [exact Hs|now left|apply in_app_iff; right; now left]. }
  assert (y - x < g_sendto G) by (apply Hd; [now left|right; apply in_app_iff; right; now left]).
  unfold elapsed, u32. rewrite <- Zminus_mod. rewrite Z.mod_small; lia.
Qed.
(** a loop that sends, begun at clock value [x0] *)
Definition whole (x0 total sent : Z) (m : Mo Z) : Prop := forall s a s' t, m s = Ret a s' t -> used s s' /\
  (forall ts, e_times (s_env s) = ts ++ e_times (s_env s') -> errs t = false -> 0 <= sent <= total -> Sorted Z.le (x0 :: ts) ->
   (forall x y, In x (x0 :: ts) -> In y (x0 :: ts) -> y - x < g_sendto G) -> a = total).
Lemma sendb_whole fuel : forall rest total x0 sent, sent + zlen rest = total -> whole x0 total sent (sendb_loop G fuel rest total (u32 x0) sent).
Proof.
  induction fuel as [|fuel IH]; intros rest total x0 sent Hr s a s' t H; cbn [sendb_loop] in H; [discriminate|].
  split.
  { pose proof (t_sendb G (S fuel) rest total (u32 x0) sent s a s' t H) as (u & E & _). exists u. exact E. }
  intros ts Ets He Hs Hso Hd. destruct (sent <? total) eqn:E1; cbn [andb] in H.
  2: { apply ret_inv in H. destruct H as (-> & _). lia. }
  assert (E2 : (0 <=? sent) = true) by lia. rewrite E2 in H. clear E2.
  apply bind_inv in H. destruct H as (sr & s1 & t1 & t2 & H1 & H & ->). apply tsend_inv in H1. destruct H1 as (k & ks & Ek & -> & H1).
  rewrite errs_app in He. apply orb_false_iff in He. destruct He as (He1 & He2).
  destruct H1 as [(_ & _ & ->)|(Hk & -> & ->)]; [discriminate|]. pose proof (Zle_0_nat (length rest)) as Hz. unfold zlen in *.
  set (sr := Z.min k (Z.of_nat (length rest))) in *. assert (Hsr : 0 <= sr <= Z.of_nat (length rest)) by lia.
  apply bind_inv in H. destruct H as (sent1 & s2 & t3 & t4 & H2 & H & ->). rewrite errs_app in He2. apply orb_false_iff in He2. destruct He2 as (He2 & He3).
  assert (Hx : exists us, ts ++ e_times (s_env s') = us ++ e_times (s_env s2) /\ sent1 = sent + sr).
  { destruct (0 <? sr) eqn:E3.
    - mgo H2. cbn in Tm. exists [x]. split; [rewrite <- Ets, Tm; reflexivity|reflexivity].
    - destruct (sr <? 0) eqn:E4; [lia|]. apply ret_inv in H2. destruct H2 as (-> & -> & ->). exists []. split; [rewrite <- Ets; reflexivity|lia]. }
  destruct Hx as (us & Eu & ->). clear H2. apply bind_inv in H. destruct H as (now & s3 & t5 & t6 & H3 & H & ->). apply getTime_inv in H3.
  destruct H3 as (y & r & Ey & -> & -> & ->).
  assert (Hu : exists vs, ts = us ++ y :: vs /\ e_times (s_env (mkSt (s_ctx s2) (env_times (s_env s2) r))) = vs ++ e_times (s_env s')).
  { assert (U : exists v, r = v ++ e_times (s_env s')).
    { destruct (g_sendto G <=? _); [apply ret_inv in H; destruct H as (_ & -> & _); exists []; reflexivity|].
      apply (IH (skipn (Z.to_nat sr) rest) total x0 (sent + sr)) in H; [destruct H as ((v & E) & _); exists v; exact E|].
      unfold zlen. rewrite skipn_length. lia. }
    destruct U as (v & ->). exists v. split; [|reflexivity]. rewrite Ey in Eu. apply (app_inv_tail (e_times (s_env s'))). rewrite Eu, <- app_assoc. reflexivity. }
  destruct Hu as (vs & -> & Ev). assert (Hel : elapsed (u32 y) (u32 x0) < g_sendto G) by (eapply (round_time x0 y us vs); eassumption).
  destruct (g_sendto G <=? elapsed (u32 y) (u32 x0)) eqn:E5; [lia|].
  apply (IH (skipn (Z.to_nat sr) rest) total x0 (sent + sr)) in H; [|unfold zlen; rewrite skipn_length; lia]. destruct H as (_ & H).
  apply (H vs Ev); [exact He3|lia| |].
  - change (x0 :: us ++ y :: vs) with ((x0 :: us) ++ y :: vs) in Hso. change (x0 :: vs) with ([x0] ++ vs).
    apply Sorted_StronglySorted in Hso; [|intros ? ? ?; lia]. apply StronglySorted_Sorted. clear - Hso.
    assert (In0 : Forall (Z.le x0) (us ++ y :: vs) /\ StronglySorted Z.le vs).
    { cbn in Hso. inversion Hso as [|? ? A B]; subst. split; [exact B|]. clear - A. induction us; cbn in A; [now inversion A|]. inversion A; auto. }
    destruct In0 as (A & B). cbn. constructor; [exact B|]. rewrite Forall_forall in *. intros z Hz. apply A, in_app_iff. right. now right.
  - intros a0 b0 Ha Hb. apply Hd; [destruct Ha as [->|Ha]|destruct Hb as [->|Hb]]; try (now left); right; apply in_app_iff; right; now right.
Qed.
Lemma advance_len vs : forall k, 0 <= k <= zlen (concat vs) -> zlen (concat (advance vs k)) = zlen (concat vs) - k.
Proof.
  unfold zlen. induction vs as [|v vs IH]; intros k Hk; cbn [advance concat] in *; [cbn in *; lia|].
  rewrite app_length in Hk. unfold zlen. destruct (Z.of_nat (length v) <=? k) eqn:E.
  - rewrite IH by lia. rewrite app_length. lia.
  - destruct (0 <? k) eqn:E2; cbn [concat]; rewrite !app_length; [rewrite skipn_length|]; lia.
Qed.
Lemma sendv_whole fuel : forall vs total x0 sent, sent + zlen (concat vs) = total -> whole x0 total sent (sendv_loop G fuel vs total (u32 x0) sent).
Proof.
  induction fuel as [|fuel IH]; intros vs total x0 sent Hr s a s' t H; cbn [sendv_loop] in H; [discriminate|].
  split.
  { pose proof (t_sendv G (S fuel) vs total (u32 x0) sent s a s' t H) as (u & E & _). exists u. exact E. }
  intros ts Ets He Hs Hso Hd. destruct (sent <? total) eqn:E1; cbn [andb] in H.
  2: { apply ret_inv in H. destruct H as (-> & _). lia. }
  assert (E2 : (0 <=? sent) = true) by lia. rewrite E2 in H. clear E2.
  apply bind_inv in H. destruct H as (sr & s1 & t1 & t2 & H1 & H & ->). destruct vs as [|v0 vs0]; [discriminate|]. set (vs := v0 :: vs0) in *.
  apply tsend_inv in H1. destruct H1 as (k & ks & Ek & -> & H1).
  rewrite errs_app in He. apply orb_false_iff in He. destruct He as (He1 & He2).
  destruct H1 as [(_ & _ & ->)|(Hk & -> & ->)]; [discriminate|]. set (of := if g_writev G then concat vs else v0) in *.
  assert (Hof : 0 <= zlen of <= zlen (concat vs)) by (unfold of, vs; cbn [concat]; unfold zlen; rewrite app_length; destruct (g_writev G); [rewrite app_length|]; lia).
  set (sr := Z.min k (zlen of)) in *. assert (Hsr : 0 <= sr <= zlen (concat vs)) by lia.
  apply bind_inv in H. destruct H as (sent1 & s2 & t3 & t4 & H2 & H & ->). rewrite errs_app in He2. apply orb_false_iff in He2. destruct He2 as (He2 & He3).
  assert (Hx : exists us, ts ++ e_times (s_env s') = us ++ e_times (s_env s2) /\ sent1 = sent + sr).
  { destruct (0 <? sr) eqn:E3.
    - mgo H2. cbn in Tm. exists [x]. split; [rewrite <- Ets, Tm; reflexivity|reflexivity].
    - destruct (sr <? 0) eqn:E4; [lia|]. apply ret_inv in H2. destruct H2 as (-> & -> & ->). exists []. split; [rewrite <- Ets; reflexivity|lia]. }
  destruct Hx as (us & Eu & ->). clear H2. apply bind_inv in H. destruct H as (now & s3 & t5 & t6 & H3 & H & ->). apply getTime_inv in H3.
  destruct H3 as (y & r & Ey & -> & -> & ->).
  assert (Hu : exists vs, ts = us ++ y :: vs /\ e_times (s_env (mkSt (s_ctx s2) (env_times (s_env s2) r))) = vs ++ e_times (s_env s')).
  { assert (U : exists v, r = v ++ e_times (s_env s')).
    { destruct (g_sendto G <? _); [apply ret_inv in H; destruct H as (_ & -> & _); exists []; reflexivity|].
      apply (IH (advance vs sr) total x0 (sent + sr)) in H; [destruct H as ((v & E) & _); exists v; exact E|].
      rewrite advance_len; lia. }
    destruct U as (v & ->). exists v. split; [|reflexivity]. rewrite Ey in Eu. apply (app_inv_tail (e_times (s_env s'))). rewrite Eu, <- app_assoc. reflexivity. }
  destruct Hu as (ws & -> & Ev). assert (Hel : elapsed (u32 y) (u32 x0) < g_sendto G) by (eapply (round_time x0 y us ws); eassumption).
  destruct (g_sendto G <? elapsed (u32 y) (u32 x0)) eqn:E5; [lia|].
  apply (IH (advance vs sr) total x0 (sent + sr)) in H; [|rewrite advance_len; lia]. destruct H as (_ & H).
  apply (H ws Ev); [exact He3|lia| |].
  - change (x0 :: us ++ y :: ws) with ((x0 :: us) ++ y :: ws) in Hso. change (x0 :: ws) with ([x0] ++ ws).
    apply Sorted_StronglySorted in Hso; [|intros ? ? ?; lia]. apply StronglySorted_Sorted. clear - Hso.
    assert (In0 : Forall (Z.le x0) (us ++ y :: ws) /\ StronglySorted Z.le ws).
    { cbn in Hso. inversion Hso as [|? ? A B]; subst. split; [exact B|]. clear - A. induction us; cbn in A; [now inversion A|]. inversion A; auto. }
    destruct In0 as (A & B). cbn. constructor; [exact B|]. rewrite Forall_forall in *. intros z Hz. apply A, in_app_iff. right. now right.
  - intros a0 b0 Ha Hb. apply Hd; [destruct Ha as [->|Ha]|destruct Hb as [->|Hb]]; try (now left); right; apply in_app_iff; right; now right.
Qed.
Lemma whole_start (m : Z -> env -> Mo Z) total : 0 <= total -> (forall x0 e, whole x0 total 0 (m (u32 x0) e)) ->
  fine (fun r => r = total) (let* startTime := getTime in let* e := gete in m startTime e).
Proof.
  intros Ht H s a s' t E. apply bind_inv in E. destruct E as (x & s1 & t1 & t2 & E1 & E & ->). apply getTime_inv in E1. destruct E1 as (x0 & r & Er & -> & -> & ->).
  apply bind_inv in E. destruct E as (e & s2 & t3 & t4 & E2 & E & ->). apply gete_inv in E2. destruct E2 as (-> & -> & ->).
  destruct (H _ _ _ _ _ _ E) as ((u & U) & K). cbn [s_env env_times e_times] in U. split; [exists (x0 :: u); rewrite Er, U; reflexivity|].
  intros (He & ts & Et & Hs & Hd). cbn [app] in He. assert (ts = x0 :: u) as -> by (rewrite Er, U in Et; change (x0 :: u ++ e_times (s_env s')) with ((x0 :: u) ++ e_times (s_env s')) in Et; now apply app_inv_tail in Et).
  apply (K u); auto. lia.
Qed.
Lemma f_sendBuffer bs : fine (fun r => r = zlen bs) (sendBuffer G bs).
Proof. unfold sendBuffer. apply (whole_start (fun st0 e => sendb_loop G (S (length (e_sends e))) bs (zlen bs) st0 0)); [unfold zlen; lia|]. intros. apply sendb_whole. lia. Qed.
Lemma f_sendv vs : fine (fun r => r = zlen (concat vs)) (sendMessageVector G vs).
Proof. unfold sendMessageVector. apply (whole_start (fun st0 e => sendv_loop G (S (length (e_sends e))) vs (zlen (concat vs)) st0 0)); [unfold zlen; lia|]. intros. apply sendv_whole. lia. Qed.
Opaque sendBuffer sendMessageVector.

(** ** No call fails to send *)
Notation nsf := (fun x : status => x <> SendFailed).
Notation nsf1 := (fun p => fst p <> SendFailed).
Notation nsf2 := (fun p => fst (fst p) <> SendFailed).
Notation nsf3 := (fun p => fst (fst (fst p)) <> SendFailed).
Ltac tq := repeat first
  [ assumption
  | apply k_ret, tx_refl | apply k_lift, tx_refl | apply k_massert, tx_refl | apply k_getc, tx_refl | apply k_gete, tx_refl
  | apply t_getTime | apply t_trecv | apply k_undef | apply k_stuck | apply t_on_recs | apply t_header | apply t_retrieve | apply t_store | apply t_callback | apply t_exact | apply t_broke
  | apply t_modc; intro; repeat match goal with |- context [if ?b then _ else _] => destruct b end; reflexivity
  | apply t_emit; reflexivity
  | apply t_bind; [|intros ?]
  | match goal with
    | |- keeps _ (if ?b then _ else _) => destruct b
    | |- keeps _ (match ?x with _ => _ end) => destruct x
    end ].
Ltac dp := repeat match goal with x : (_ * _)%type |- _ => destruct x end; cbn [fst snd].
Ltac leaf := intros; cbn [fst snd] in *; repeat match goal with |- context [if ?b then _ else _] => destruct b eqn:?; cbn [fst snd] end; first [assumption|congruence|lia].
Ltac fp := cbv zeta; repeat first
  [ apply f_undef | apply f_stuck
  | apply f_ret; solve [leaf]
  | match goal with
    | |- fine _ (bind (sendBuffer _ ?bs) _) => apply (f_bind _ _ _ _ (f_sendBuffer bs)); intros ?
    | |- fine _ (bind (sendMessageVector _ ?bs) _) => apply (f_bind _ _ _ _ (f_sendv bs)); intros ?
    | |- @fine (status * _ * _ * _) nsf3 (lift _) => fail 1
    | |- fine _ (@bind status _ _ _) => apply (f_bind nsf); [|intros ?]
    | |- fine _ (@bind (status * _) _ _ _) => apply (f_bind nsf1); [|intros ?; dp]
    | |- fine _ (@bind (status * _ * _) _ _ _) => apply (f_bind nsf2); [|intros ?; dp]
    | |- fine _ (@bind (status * _ * _ * _) _ _ _) => apply (f_bind nsf3); [|intros ?; dp]
    | |- fine _ (bind _ _) => apply (f_bind (fun _ => True)); [apply f_keeps; solve [tq]|intros ?; dp]
    | |- fine _ (if ?b then _ else _) => destruct b eqn:?
    | |- fine _ (match ?x with _ => _ end) => destruct x eqn:?
    end ].
Lemma must_sf c : must_be_connected c <> SendFailed.
Proof. unfold must_be_connected. destruct (x_status c); discriminate. Qed.
Lemma g_any {A} (Q : A -> Prop) r : (forall a, Q a) -> giving Q r.
Proof. intros H a _. apply H. Qed.
Lemma f_acks id ps : fine nsf (sendPublishAcks G id ps).
Proof.
  unfold sendPublishAcks. destruct (ackToSend ps) as [(tb, ty)|] eqn:E; [|fp].
  rewrite (serializeAck_bytes _ _ _ _ E). destruct (id =? 0).
  - apply (f_bind (fun p => p = (BadParameter, Some (repeat 0 4)))); [apply f_lift, gv_ok; reflexivity|]. intros (st, buf).
    apply (f_bind (fun x => (st, buf) = (BadParameter, Some (repeat 0 4)) -> x = BadParameter)).
    + destruct (status_beq st Success) eqn:Es; [|apply f_ret; congruence].
      apply (f_weak (fun _ => True)); [apply f_keeps; tq; apply t_sendBuffer|]. intros a _ C. injection C as -> ->. discriminate.
    + intros a. destruct (status_beq a Success) eqn:Es; [|apply f_ret; intros H1 H2; rewrite (H1 H2); discriminate].
      apply (f_weak (fun _ => True)); [apply f_keeps; tq|]. intros b _ H1 H2. rewrite (H1 H2) in Es. discriminate.
  - apply (f_bind (fun p => p = (Success, Some [tb; 2; hi8 id; lo8 id]))); [apply f_lift, gv_ok; reflexivity|]. intros (st, buf).
    apply (f_bind (fun x => (st, buf) = (Success, Some [tb; 2; hi8 id; lo8 id]) -> x <> SendFailed)).
    + destruct (status_beq st Success) eqn:Es; [|apply f_ret; congruence].
      apply (f_bind (fun _ => True)); [apply f_keeps; tq|]. intro c. cbv zeta. destruct (status_beq (must_be_connected c) Success); [|apply f_ret; intros; apply must_sf].
      apply (f_bind _ _ _ _ (f_sendBuffer _)). intro r. apply f_ret. intros -> _ C. injection C as -> ->. discriminate.
    + intros a. destruct (status_beq a Success) eqn:Es; [|apply f_ret; intros H1 H2; now apply H1].
      apply (f_bind (fun _ => True)); [apply f_keeps; tq|]. intros [].
      apply (f_bind nsf1); [apply f_recs; intros r ((x, y), z) Ex; cbn [fst]; now apply no_sf_ackapi in Ex|]. intros (st2, y). apply f_ret. intros H _ _ _. exact H.
Qed.
Lemma f_ping : fine nsf (ping G).
Proof.
  unfold ping. change (serializePingreq (Some (repeat 0 2))) with (Ok (Success, Some [192; 0])).
  apply (f_bind (fun p => p = (Success, Some [192; 0]))); [apply f_lift, gv_ok; reflexivity|]. intros (st, buf).
  destruct (status_beq st Success) eqn:Es; [|apply f_ret; congruence].
  apply (f_bind (fun _ => True)); [apply f_keeps; tq|]. intro c. cbv zeta. destruct (status_beq (must_be_connected c) Success); [|apply f_ret; intros; apply must_sf].
  apply (f_bind _ _ _ _ (f_sendBuffer _)). intro r. destruct (r <? 2) eqn:Er.
  - apply f_ret. intros -> _ C. injection C as -> ->. discriminate.
  - apply (f_bind (fun _ => True)); [apply f_keeps; tq|]. intros []. apply f_ret. discriminate.
Qed.
Lemma f_disconnect : fine nsf (disconnect G).
Proof.
  unfold disconnect. change (serializeDisconnect (Some (repeat 0 2))) with (Ok (Success, Some [224; 0])).
  apply (f_bind (fun p => p = (Success, Some [224; 0]))); [apply f_lift, gv_ok; reflexivity|]. intros (st, buf).
  destruct (status_beq st Success) eqn:Es; [|apply f_ret; congruence].
  apply (f_bind (fun _ => True)); [apply f_keeps; tq|]. intro c. cbv zeta. destruct (cstatus_beq (x_status c) NotConnected); [apply f_ret; discriminate|].
  apply (f_bind (fun _ => True)); [apply f_keeps; tq|]. intros [].
  apply (f_bind _ _ _ _ (f_sendBuffer _)). intro r. apply f_ret. intros -> _ _ C. injection C as -> ->. discriminate.
Qed.
Lemma f_subscribe l n id : fine nsf (subscribe G l n id).
Proof.
  assert (L1 : forall fuel l vs, fine nsf (sub_send_loop G fuel l vs)).
  { induction fuel as [|fuel IH]; intros; cbn [sub_send_loop]; fp. eapply f_weak; [apply IH|]. auto. }
  unfold subscribe, validateSubUnsub, sendSubscribeWithoutCopy. fp; try (apply f_lift, sf_subsize1); try (eapply f_weak; [apply L1|auto; fail]).
  all: apply f_ret; intros; apply must_sf.
Qed.
Lemma f_unsubscribe l n id : fine nsf (unsubscribe G l n id).
Proof.
  assert (L1 : forall fuel l vs, fine nsf (unsub_send_loop G fuel l vs)).
  { induction fuel as [|fuel IH]; intros; cbn [unsub_send_loop]; fp. eapply f_weak; [apply IH|]. auto. }
  unfold unsubscribe, validateSubUnsub, sendUnsubscribeWithoutCopy. fp; try (apply f_lift, sf_subsize2); try (eapply f_weak; [apply L1|auto; fail]).
  all: apply f_ret; intros; apply must_sf.
Qed.
Lemma f_publish p id : fine nsf (publish G p id).
Proof.
  unfold publish, sendPublishWithoutCopy.
  apply (f_bind (fun _ => True)); [apply f_keeps; tq|]. intro c. cbv zeta.
  assert (V : validatePublishParams c p id <> SendFailed).
  { unfold validatePublishParams. repeat match goal with |- (if ?b then _ else _) <> _ => destruct b end; discriminate. }
  destruct (status_beq (validatePublishParams c p id) Success); [|apply f_ret; intros; exact V].
  destruct (getPublishPacketSize p) as (st0, x) eqn:E. apply no_sf_pubsize in E.
  assert (D : fine (fun r => True -> r <> SendFailed) (ret st0)) by (apply f_ret; intros; exact E).
  destruct st0; try exact D. destruct x as [(rl, sz)|]; [|exact D]. clear D.
  apply (f_bind (fun _ => True)); [apply f_keeps; tq|]. intros (h, hs). destruct (status_beq (must_be_connected c) Success); [|apply f_ret; intros; apply must_sf].
  apply (f_bind nsf).
  { destruct (negb _); [|apply f_ret; discriminate]. apply (f_bind nsf).
    - apply f_recs. intros r (x, y) Ex. cbn [fst]. now apply no_sf_reserve in Ex.
    - intros x. apply f_ret. destruct (_ && _); [discriminate|auto]. }
  intro st1. apply (f_bind (fun r => st1 <> SendFailed -> r <> SendFailed)).
  { destruct (status_beq st1 Success); [|apply f_ret; auto]. apply (f_bind (fun _ => True)); [apply f_keeps; tq|]. intro c2.
    apply (f_bind nsf1).
    - unfold updateDuplicatePublishFlag. cbv zeta. fp; apply f_ret; intros; cbn [fst]; vals Heqp0; vals Heqp2.
    - intros (st2, h2). fp. }
  intro st2. destruct (_ && _); [|apply f_ret; intros; auto].
  apply (f_bind nsf1); [apply f_recs; intros r ((x, y), z) Ex; cbn [fst]; now apply no_sf_pubapi in Ex|]. intros (st3, y). apply f_ret. intros H _ _ _ _. exact H.
Qed.
Lemma f_op o : fine nsf (run_op G o).
Proof.
  destruct o; cbn [run_op].
  - apply f_publish.
  - apply f_subscribe.
  - apply f_unsubscribe.
  - apply f_ping.
  - apply f_disconnect.
  - apply (f_bind (fun _ => True)); [apply f_keeps; unfold getPacketId; tq|]. intros. apply f_ret. discriminate.
  - unfold cancel. apply (f_bind (fun _ => True)); [apply f_keeps; tq|]. intro c. destruct (outRecs _); [|apply f_ret; discriminate].
    apply f_recs. intros r (x, y) Ex. cbn [fst]. intros _. now apply no_sf_remove in Ex.
  - unfold checkConnectStatus. apply (f_bind (fun _ => True)); [apply f_keeps; tq|]. intro c. apply f_ret. intros _. destruct (x_status c); discriminate.
Qed.
Opaque ping sendPublishAcks.
Lemma f_incoming ty rem d : fine nsf (handleIncomingPublish G ty rem d).
Proof.
  unfold handleIncomingPublish. apply (f_bind nsf1); [apply f_lift, sf_publish|]. intros (st, dd). cbn [fst].
  assert (D : fine (fun r => st <> SendFailed -> r <> SendFailed) (ret st)) by (apply f_ret; auto).
  destruct st; try exact D. destruct dd as [(pub, pid)|]; [|exact D]. clear D. cbv zeta. apply (f_bind (fun _ => True)); [apply f_keeps; tq|]. intros c.
  destruct (_ && _); [apply f_ret; discriminate|].
  apply (f_bind nsf1); [apply f_recs; intros r ((x, y), z) Ex; cbn [fst]; now apply no_sf_pubapi in Ex|].
  intros (st, ns). cbn [fst]. destruct (status_beq st Success) eqn:E1; [|destruct (status_beq st StateCollision)].
  - cbn [status_beq]. apply (f_bind (fun _ => True)); [apply f_keeps; tq|]. intros _. eapply f_weak; [apply f_acks|auto].
  - cbn [status_beq]. apply (f_bind (fun _ => True)); [apply f_keeps; tq|]. intros _. eapply f_weak; [apply f_acks|auto].
  - rewrite E1. apply f_ret. auto.
Qed.
Lemma f_pubacks ty rem d : fine nsf (handlePublishAcks G ty rem d).
Proof.
  unfold handlePublishAcks, clear_publish. apply (f_bind (fun _ => True)); [apply f_keeps; tq|]. intro aty. apply (f_bind nsf2); [apply f_lift, sf_deser|].
  intros ((st, pid), sp). cbn [fst]. cbv zeta. apply (f_bind (fun p => st <> SendFailed -> fst p <> SendFailed)).
  { destruct (status_beq st Success); [|apply f_ret; auto]. apply f_recs. intros r ((x, y), z) Ex. cbn [fst]. intros _. now apply no_sf_ackapi in Ex. }
  intros (st2, ns). cbn [fst]. apply (f_bind (fun _ => True)); [apply f_keeps; tq|]. intros c. apply (f_bind (fun _ => True)); [apply f_keeps; tq|]. intros _. destruct (status_beq st2 Success).
  - apply (f_bind (fun _ => True)); [apply f_keeps; tq|]. intros _. eapply f_weak; [apply f_acks|auto].
  - apply f_ret. auto.
Qed.
Lemma f_ack ty rem d mk : fine nsf (handleIncomingAck G ty rem d mk).
Proof.
  unfold handleIncomingAck. destruct (_ || _); [apply f_pubacks|].
  apply (f_bind nsf2).
  - destruct (_ =? _); [|destruct (_ || _)].
    + apply (f_bind nsf2); [apply f_lift, sf_deser|]. intros ((st, pid), sp). cbn [fst].
      apply (f_bind (fun _ => True)); [apply f_keeps; tq|]. intros _. apply f_ret. auto.
    + apply (f_bind nsf2); [apply f_lift, sf_deser|]. intros ((st, pid), sp). cbn [fst]. apply f_ret. auto.
    + apply f_ret. discriminate.
  - intros ((st, id), inv). cbn [fst]. destruct inv; [|apply f_ret; auto]. apply (f_bind (fun _ => True)); [apply f_keeps; tq|]. intros _. apply f_ret. discriminate.
Qed.
Lemma f_discard a b c : fine nsf (discardStoredPacket G a b c).
Proof. intros s r s' t H. destruct (f_keeps _ (t_discard G a b c) _ _ _ _ H) as (U & _). split; [exact U|]. intros _.
  Transparent discardStoredPacket. unfold discardStoredPacket in H. Opaque discardStoredPacket. cbv zeta in H.
  repeat (apply bind_inv in H; destruct H as (? & ? & ? & ? & _ & H & _)). apply ret_inv in H. destruct H as (-> & _). destruct (_ =? _); discriminate.
Qed.
Lemma f_iteration mk : fine nsf (receiveSingleIteration G mk).
Proof.
  unfold receiveSingleIteration, recv_into, handleKeepAlive, shift_buffer. cbv zeta.
  apply (f_bind (fun _ => True)); [apply f_keeps; tq|]. intro c.
  apply (f_bind (fun _ => True)); [apply f_keeps; tq|]. intro r.
  apply (f_bind nsf3).
  { destruct (r <? 0); [|destruct (_ && _)].
    - apply (f_bind (fun _ => True)); [apply f_keeps; tq|]. intros _. apply f_ret. discriminate.
    - apply f_ret. discriminate.
    - apply (f_bind (fun _ => True)); [apply f_keeps; tq|]. intros _. apply (f_bind (fun _ => True)); [apply f_keeps; tq|]. intros c2.
      apply (f_bind nsf1); [apply f_lift, sf_header|]. intros (st, h). cbn [fst]. apply f_ret. intros. destruct h as [((?, ?), ?)|]; assumption. }
  intros (((st, type), rem), hdr). cbn [fst].
  apply (f_bind (fun x => st <> SendFailed -> x <> SendFailed)).
  { destruct (_ && _); [|apply f_ret; auto]. apply (f_bind nsf).
    - apply (f_bind (fun _ => True)); [apply f_keeps; tq|]. intros now. apply (f_bind (fun _ => True)); [apply f_keeps; tq|]. intros c2.
      destruct (x_waiting c2); [apply f_ret; destruct (_ <? _); discriminate|].
      destruct (_ && _); [eapply f_weak; [apply f_ping|auto]|]. destruct (_ && _); [eapply f_weak; [apply f_ping|auto]|apply f_ret; discriminate].
    - intros k. apply f_ret. intros. destruct (status_beq k Success); assumption. }
  intros st1. apply (f_bind (fun _ => True)); [apply f_keeps; tq|]. intros c3.
  apply (f_bind (fun x => st1 <> SendFailed -> x <> SendFailed)).
  { destruct (negb _); [apply f_ret; auto|]. destruct (_ <? _); [eapply f_weak; [apply f_discard|auto]|]. destruct (_ <? _); apply f_ret; discriminate. }
  intros st2. apply (f_bind (fun x => st2 <> SendFailed -> x <> SendFailed)).
  { destruct (status_beq st2 Success); [|apply f_ret; auto]. apply (f_bind (fun _ => True)); [apply f_keeps; tq|]. intros c4. apply (f_bind (fun _ => True)); [apply f_keeps; tq|]. intros _.
    apply (f_bind nsf); [destruct (_ =? _); [apply f_incoming|apply f_ack]|]. intros st3.
    apply (f_bind (fun _ => True)); [apply f_keeps; tq|]. intros _. apply (f_bind (fun _ => True)); [apply f_keeps; tq|]. intros _. apply f_ret. auto. }
  intros st3. apply f_ret. intros. destruct (status_beq st3 NoDataAvailable); [discriminate|auto].
Qed.
Lemma header_sf s a s' t : getIncomingHeader s = Ret a s' t -> fst a <> SendFailed.
Proof.
  unfold getIncomingHeader. destruct (getIncomingPacketTypeAndLength pull_recv (s, [], false)) as [(r, ((s1, t1), o))|] eqn:E; [|discriminate].
  destruct o; [discriminate|]. intro H. injection H as <- _ _. revert E. unfold getIncomingPacketTypeAndLength.
  destruct (pull_recv (s, [], false)) as ((x, y), w1). destruct (x =? 1).
  - destruct (incomingPacketValid y); [|intro E; injection E as <- _; discriminate].
    unfold getRemainingLength. destruct (getRemainingLength_loop pull_recv 5 w1 0 1 0) as [((rl, k), w2)|]; cbn [rbind]; [|discriminate].
    destruct (_ && _); cbn [rbind]; destruct (_ =? _); intro E; injection E as <- _; discriminate.
  - destruct (x =? 0); intro E; injection E as <- _; discriminate.
Qed.
Lemma f_connack tmo cl : fine nsf1 (receiveConnack G tmo cl).
Proof.
  assert (L1 : forall fuel a b c, fine nsf1 (connack_loop G fuel a b c)).
  { induction fuel as [|fuel IH]; intros; cbn [connack_loop]; [apply f_stuck|].
    apply (f_bind nsf1).
    - intros s x s' t H. destruct (f_keeps _ t_header _ _ _ _ H) as (U & _). split; [exact U|]. intros _. now apply header_sf in H.
    - intros (st, h). cbn [fst]. apply (f_bind (fun _ => True)); [apply f_keeps; tq|]. intros (stop, lc).
      destruct (_ && _); [eapply f_weak; [apply IH|auto]|apply f_ret; auto]. }
  unfold receiveConnack, receivePacket. cbv zeta. apply (f_bind (fun _ => True)); [apply f_keeps; tq|]. intros x. apply (f_bind (fun _ => True)); [apply f_keeps; tq|]. intros e.
  apply (f_bind nsf1); [apply L1|]. intros (st, h). cbn [fst].
  assert (D : fine (fun r : status * option bool => st <> SendFailed -> True -> True -> fst r <> SendFailed) (ret (st, None))) by (apply f_ret; auto).
  destruct st; try exact D. destruct h as [(ty, rm)|]; [|exact D]. clear D.
  apply (f_bind (fun _ => True)); [apply f_keeps; tq|]. intros now. apply (f_bind nsf).
  { destruct (_ =? _); [|apply f_ret; discriminate]. apply (f_bind (fun _ => True)); [apply f_keeps; tq|]. intro c. destruct (_ <? _).
    - intros s r s' t H. destruct (f_keeps _ (t_discard2 G _ _) _ _ _ _ H) as (U & _). split; [exact U|]. intros _ _.
      Transparent discardPacket. unfold discardPacket in H. Opaque discardPacket.
      repeat (apply bind_inv in H; destruct H as (? & ? & ? & ? & _ & H & _)). apply ret_inv in H. destruct H as (-> & _). destruct (_ =? _); discriminate.
    - apply (f_bind (fun _ => True)); [apply f_keeps; tq|]. intros r. apply f_ret. intros _ _. destruct (_ =? _); discriminate. }
  intros st. destruct (status_beq st Success); [|apply f_ret; auto]. apply (f_bind (fun _ => True)); [apply f_keeps; tq|]. intro c.
  apply (f_bind nsf2); [apply f_lift, sf_deser|]. intros ((st2, y), sp). apply f_ret. cbn [fst]. intros. destruct (_ && _); [discriminate|assumption].
Qed.
Lemma f_sendConnect ci will rl : fine nsf (sendConnectWithoutCopy G ci will rl).
Proof.
  unfold sendConnectWithoutCopy. destruct will as [w|]; [destruct (p_topic w); [|apply f_ret; discriminate]|].
  - apply (f_bind (fun _ => True)); [apply f_keeps; tq|]. intros vs. apply (f_bind _ _ _ _ (f_sendv _)). intros r. apply f_ret. intros ->. rewrite Z.eqb_refl. discriminate.
  - apply (f_bind (fun _ => True)); [apply f_keeps; tq|]. intros vs. apply (f_bind _ _ _ _ (f_sendv _)). intros r. apply f_ret. intros ->. rewrite Z.eqb_refl. discriminate.
Qed.
Lemma f_clean : fine nsf handleCleanSession.
Proof.
  assert (L4 : forall fuel a, keeps tx_frame (clear_loop fuel a)).
  { induction fuel as [|fuel IH]; intros; cbn [clear_loop]; unfold clear_publish; tq; auto. }
  unfold handleCleanSession. apply (f_bind (fun _ => True)); [apply f_keeps; tq|]. intros _. apply (f_bind (fun _ => True)); [apply f_keeps; tq|]. intros c2.
  apply (f_bind (fun _ => True)); [apply f_keeps; destruct (x_retr c2); [apply L4|tq]|]. intros _. apply (f_bind (fun _ => True)); [apply f_keeps; tq|]. intros _. apply f_ret. discriminate.
Qed.
Lemma f_resume : fine nsf (handleUncleanSessionResumption G).
Proof.
  assert (L2 : forall fuel a b, fine nsf (pubrel_loop G fuel a b)).
  { induction fuel as [|fuel IH]; intros; cbn [pubrel_loop]; [apply f_stuck|]. destruct (_ =? _); [apply f_ret; discriminate|].
    apply (f_bind nsf); [apply f_acks|]. intros st. destruct (negb _); [apply f_ret; auto|]. apply (f_bind (fun _ => True)); [apply f_keeps; tq|]. intros c.
    destruct (pubrelToResend _ _). eapply f_weak; [apply IH|auto]. }
  assert (L3 : forall fuel a, fine nsf (publish_loop G fuel a)).
  { induction fuel as [|fuel IH]; intros; cbn [publish_loop]; [apply f_stuck|]. apply (f_bind (fun _ => True)); [apply f_keeps; tq|]. intros c. destruct (publishToResend _ _).
    destruct (_ =? _); [apply f_ret; discriminate|]. apply (f_bind (fun _ => True)); [apply f_keeps; tq|]. intros [bs|]; [|apply f_ret; discriminate].
    apply (f_bind _ _ _ _ (f_sendBuffer _)). intros r. destruct (negb _) eqn:E; [apply f_ret; intros ->; rewrite Z.eqb_refl in E; discriminate|]. eapply f_weak; [apply IH|auto]. }
  unfold handleUncleanSessionResumption. apply (f_bind (fun _ => True)); [apply f_keeps; tq|]. intros c. cbv zeta. destruct (pubrelToResend _ _).
  apply (f_bind nsf); [apply L2|]. intros st2. destruct (_ && _); [|apply f_ret; auto]. eapply f_weak; [apply L3|auto].
Qed.
Lemma f_connect ci will tmo : fine nsf1 (connect G ci will tmo).
Proof.
  unfold connect.
  destruct (getConnectPacketSize ci will) as (st0, x) eqn:E. apply no_sf_consize in E.
  apply (f_bind nsf1).
  { assert (D : fine (fun r : status * option bool => fst r <> SendFailed) (ret (st0, None))) by (apply f_ret; auto).
    destruct st0; try exact D. destruct x as [(rl, sz)|]; [|exact D]. clear D. apply (f_bind (fun _ => True)); [apply f_keeps; tq|]. intros c. cbv zeta.
    apply (f_bind nsf); [destruct (status_beq _ _); [eapply f_weak; [apply f_sendConnect|auto]|apply f_ret; destruct (x_status c); discriminate]|].
    intros st1. apply (f_bind (fun p => st1 <> SendFailed -> fst p <> SendFailed)).
    { destruct (status_beq st1 Success); [|apply f_ret; auto]. eapply f_weak; [apply f_connack|auto]. }
    intros (st2, sp). cbn [fst]. apply (f_bind (fun r => st2 <> SendFailed -> r <> SendFailed)); [destruct (_ && _); [eapply f_weak; [apply f_clean|auto]|apply f_ret; auto]|].
    intros st3. apply (f_bind (fun _ => True)); [apply f_keeps; tq|]. intros _. apply f_ret. cbn [fst]. auto. }
  intros (st, sp). cbn [fst]. apply (f_bind (fun r => st <> SendFailed -> r <> SendFailed)); [destruct (_ && _); [eapply f_weak; [apply f_resume|auto]|apply f_ret; auto]|].
  intros st2. apply (f_bind (fun _ => True)); [apply f_keeps; tq|]. intros _. apply f_ret. cbn [fst]. auto.
Qed.
Lemma f_call c : fine nsf (run_call G c).
Proof.
  destruct c; cbn [run_call]; [apply f_op|apply (f_bind nsf1); [apply f_connect|intros (st, sp); apply f_ret; cbn [fst]; auto]|unfold processLoop|apply f_iteration].
  apply (f_bind (fun _ => True)); [apply f_keeps; tq|]. intros _. eapply f_weak; [apply f_iteration|auto].
Qed.
End Calm.
Lemma smooth_no_failure G c s r s' t : 0 <= g_sendto G < 4294967296 -> run_call G c s = Ret r s' t -> smooth G s s' t -> r <> SendFailed.
Proof. intros Hg H Hc. destruct (f_call G Hg c _ _ _ _ H) as (_ & K). exact (K Hc). Qed.

(** ** Calls that succeed *)
Lemma reach_some n m c : Reach n m c -> ((0 < n)%nat -> outRecs c <> None) /\ ((0 < m)%nat -> inRecs c <> None).
Proof.
  intros (ops & outs & _ & H).
  assert (K : forall ops c0 outs c, engine_run c0 (map to_call ops) = Ok (outs, c) ->
     (outRecs c = None <-> outRecs c0 = None) /\ (inRecs c = None <-> inRecs c0 = None)).
  { clear. induction ops as [|o ops IH]; intros c0 outs c H; cbn [map engine_run] in H.
    - assert (c = c0) by congruence. subst. tauto.
    - destruct (engine_step c0 (to_call o)) as [(r, c1)|] eqn:E; [|discriminate]. cbn [rbind] in H.
      destruct (engine_run c1 (map to_call ops)) as [(rs, c2)|] eqn:E2; [|discriminate]. cbn [rbind] in H.
      assert (c2 = c) by congruence. subst c2. apply IH in E2. apply CoreProofs7.step_shape in E. tauto. }
  apply K in H. destruct H as (H1 & H2). split; intros Hn C; [apply H1 in C|apply H2 in C]; cbn in C; [destruct n|destruct m]; try lia; discriminate.
Qed.
Section Succeed.
Variables (G : cfg) (n m : nat).
Hypothesis Hto : 0 <= g_sendto G < 4294967296.
Lemma ready_succeeds o bs s r s' t : g_big G = false -> Begun G n m s -> x_status (s_ctx s) = Connected -> ready n m s o bs -> run_op G o s = Ret r s' t ->
  smooth G s s' t -> (forall id vs, ~ In (EStore id vs false) t) -> r = Success /\ outs t = bs.
Proof.
  intros Hbig HB Hc Hr H Hs Hst. assert (HM : 4294967296 <= g_M G) by (destruct HB as (s0 & l & rs & t0 & (buf & rt & e & A & _) & _); exact A).
  assert (Hn : r <> SendFailed) by (eapply (smooth_no_failure G (COp o)); eauto).
  pose proof (begun_reach _ _ _ _ HB) as HR. destruct (reach_some _ _ _ HR) as (Ho & Hi).
  assert (W : op_packet (g_M G) o bs -> r = Success -> outs t = bs).
  { intros Hp ->. destruct (op_wire G _ _ _ _ _ _ HM Hbig Hp H) as (k & _ & -> & _ & Hk & _). rewrite (Hk eq_refl). apply firstn_all. }
  assert (NS : forall l fs, subs_mean l fs -> ((0 < m)%nat \/ Forall (fun f => snd f = Q0) fs) -> CoreProofs4.subs_need_state (s_ctx s) l = false).
  { intros l fs Hl Hq. unfold CoreProofs4.subs_need_state. destruct (inRecs (x_recs (s_ctx s))) eqn:Ei; [reflexivity|].
    destruct Hq as [Hq|Hq]; [exfalso; now apply (Hi Hq)|]. clear - Hl Hq. induction Hl as [|x f l fs Hx Hl IH]; [reflexivity|]. inversion Hq as [|? ? A B]; subst. cbn [existsb].
    destruct Hx as (_ & _ & Hx). rewrite Hx, A. cbn. auto. }
  destruct Hr as [p id msg Hm Hne Hsz Hf|l fs id Hl Hfs Hid Hsz Hq|l fs id Hl Hfs Hid Hsz Hq| |].
  - assert (r = Success); [|split; [assumption|apply W; [now constructor|assumption]]]. cbn [run_op] in H.
    pose proof H as H'. apply CoreProofs3.publish_spec in H. destruct H as [(-> & -> & _ & [(-> & Hv)|(Hx & _)])|(_ & Hv & rl & ps & h & hs & rst & r1 & _ & _ & K3 & K4)]; [exfalso| contradiction |].
    + pose proof (SerProofs2.publish_size_ok p id msg Hm Hne) as Es. replace (zlen (publish_body msg) <=? 268435450) with true in Es by lia.
      destruct Hv as [Hv|Hv]; [|congruence]. apply Hv. unfold validatePublishParams.
      assert (E1 : negb (qos_beq (p_qos p) Q0) && (id =? 0) = false).
      { destruct (p_qos p); [reflexivity|..]; cbn [qos_beq negb andb]; destruct Hf as (Hf & _); try discriminate; lia. }
      assert (E2 : (0 <? p_paylen p) && match p_payload p with None => true | Some _ => false end = false).
      { destruct Hm as (_ & _ & _ & _ & _ & _ & _ & Hp). destruct Hp as [(mm & -> & _)|(-> & -> & _)]; [apply andb_false_r|reflexivity]. }
      rewrite E1, E2. destruct (p_qos p) eqn:Eq; [rewrite andb_false_r; reflexivity|..];
        (destruct (outRecs (x_recs (s_ctx s))) eqn:Eo; [reflexivity|]; exfalso; destruct Hf as (_ & _ & Hf); [discriminate|]; apply Ho; [lia|reflexivity]).
    + destruct (CoreProofs14.reserve_step_eq _ _ _ _ _ _ _ HR (CoreProofs14.publish_params _ _ _ Hv) K3) as (HR1 & _ & Eo). cbv zeta in K4.
      assert (rst = Success).
      { destruct (qos_beq (p_qos p) Q0) eqn:Eq; [apply Eo|]. destruct Hf as (_ & Hf2 & Hf3); [intro Q; rewrite Q in Eq; discriminate|]. unfold outgoing in *. rewrite Hf2 in Eo.
        replace (length (tracked (outRecs (x_recs (s_ctx s)))) <? n)%nat with true in Eo by (symmetry; apply Nat.ltb_lt; exact Hf3). apply Eo. }
      destruct K4 as [(C & _)|(_ & vd & ok & e & te & S1 & _ & S3)]; [contradiction|].
      destruct S3 as [(-> & _ & _ & ->)|(-> & vs & sok & t1 & s1 & _ & S4 & _ & [(_ & -> & _)|(_ & S5)])]; [exfalso|congruence|].
      { unfold CoreProofs3.store_step in S1. destruct (_ && _); [destruct S1 as (_ & _ & ->); apply (Hst id vd); now left|destruct S1; discriminate]. }
      destruct (qos_beq (p_qos p) Q0) eqn:Eq; [destruct (p_qos p); try discriminate; apply S5|].
      assert (Nq : p_qos p <> Q0) by (destruct (p_qos p); congruence || discriminate). destruct (Hf Nq) as (Hf1 & Hf2 & Hf3). unfold outgoing in *. rewrite Hf2 in Eo.
      replace (length (tracked (outRecs (x_recs (s_ctx s)))) <? n)%nat with true in Eo by (symmetry; apply Nat.ltb_lt; exact Hf3). destruct Eo as (_ & Eo).
      destruct (CoreProofs14.published_eq n m r1 id (p_qos p) HR1 Nq Hf1) as (c' & E & _ & _ & _).
      assert (S6 : exists ns r2, updateStatePublishApi r1 id OpSend (p_qos p) = Ok (r, ns, r2)) by (destruct (p_qos p); [congruence|destruct S5 as (ns & r2 & S5 & _); eauto..]).
      destruct S6 as (ns & r2 & S6). set (q := spec_step (view n m r1) (Published id OpSend (p_qos p))) in *. assert (r = fst (fst q)) as -> by congruence.
      unfold q. cbn [spec_step view sent]. replace (id =? 0) with false by lia. rewrite Eo, (CoreProofs14.lookup_app _ _ _ Hf2). cbn [lookup find f_id]. rewrite Z.eqb_refl. cbn [f_qos f_st].
      destruct (p_qos p); [congruence|reflexivity..].
  - assert (Hp : op_packet (g_M G) (OSubscribe (Some l) (zlen l) id) (subscribe_packet id fs)) by (constructor; auto; unfold max_remaining in Hsz; lia).
    assert (r = Success); [|auto]. cbn [run_op] in H. eapply CoreProofs4.subscribe_spec in H; eauto; [|unfold max_remaining in Hsz; lia]. rewrite (NS _ _ Hl Hq) in H.
    replace (max_remaining <? zlen (subscribe_body id fs)) with false in H by lia. cbn [orb] in H. rewrite Hc in H. destruct H as (ok & _ & ->). destruct ok; [reflexivity|]. now contradiction Hn.
  - assert (Hp : op_packet (g_M G) (OUnsubscribe (Some l) (zlen l) id) (unsubscribe_packet id (map fst fs))) by (constructor; auto; unfold max_remaining in Hsz; lia).
    assert (r = Success); [|auto]. cbn [run_op] in H. eapply CoreProofs4.unsubscribe_spec in H; eauto; [|unfold max_remaining in Hsz; lia]. rewrite (NS _ _ Hl Hq) in H.
    replace (max_remaining <? zlen (unsubscribe_body id (map fst fs))) with false in H by lia. cbn [orb] in H. rewrite Hc in H. destruct H as (ok & _ & ->). destruct ok; [reflexivity|]. now contradiction Hn.
  - assert (r = Success); [|split; [assumption|apply W; [constructor|assumption]]]. cbn [run_op] in H. apply ping_spec in H.
    destruct H as [(C & _)|(_ & ok & s1 & _ & [(_ & -> & _)|(_ & -> & _)])]; [contradiction|congruence|reflexivity].
  - assert (r = Success); [|split; [assumption|apply W; [constructor|assumption]]]. cbn [run_op] in H. apply disconnect_effect in H.
    destruct H as [(C & _)|(_ & [->| ->] & _)]; [congruence|reflexivity|congruence].
Qed.
End Succeed.

(** ** MQTT_Connect that succeeds *)
Definition brisk (B : Z) (l : list Z) : Prop := ForallOrdPairs (fun a b => 0 <= b - a < B) l.
Lemma within_brisk B s s' : within B s s' -> exists ts, e_times (s_env s) = ts ++ e_times (s_env s') /\ brisk B ts.
Proof.
  intros (ts & E & Hs & Hd). exists ts. split; [exact E|]. clear E. apply Sorted_StronglySorted in Hs; [|intros a b c; lia].
  induction Hs as [|a l Hs IH Ha]; constructor.
  - rewrite Forall_forall in *. intros b Hb. specialize (Ha b Hb). assert (b - a < B) by (apply Hd; [now left|now right]). lia.
  - apply IH. intros x y Hx Hy. apply Hd; now right.
Qed.
Lemma brisk_tail B a l : brisk B (a :: l) -> brisk B l.
Proof. intro H. now inversion H. Qed.
Lemma brisk_drop B u l : brisk B (u ++ l) -> brisk B l.
Proof. induction u as [|a u IH]; intro H; [exact H|]. apply IH. now apply brisk_tail in H. Qed.
Lemma brisk_take B l u : brisk B (l ++ u) -> brisk B l.
Proof.
  induction l as [|a l IH]; intro H; [constructor|]. cbn [app] in H. inversion H as [|? ? H1 H2]; subst. constructor; [apply Forall_app in H1; apply H1|now apply IH].
Qed.
Lemma brisk_skip B x u l : brisk B (x :: u ++ l) -> brisk B (x :: l).
Proof.
  intro H. inversion H as [|? ? H1 H2]; subst. constructor; [|now apply brisk_drop in H2]. apply Forall_app in H1. apply H1.
Qed.
Lemma brisk_head B x y l : brisk B (x :: y :: l) -> 0 <= B < 4294967296 -> elapsed (u32 y) (u32 x) < B.
Proof.
  intros H HB. inversion H as [|? ? H1 _]; subst. inversion H1 as [|? ? H2 _]; subst. unfold elapsed, u32. rewrite <- Zminus_mod, Z.mod_small; lia.
Qed.
Ltac tr := repeat first
  [ apply k_ret, tx_refl | apply k_lift, tx_refl | apply k_massert, tx_refl | apply k_getc, tx_refl | apply k_gete, tx_refl
  | apply t_getTime | apply t_exact | apply t_discard2 | apply t_bind; [|intros ?]
  | match goal with
    | |- keeps _ (if ?b then _ else _) => destruct b
    | |- keeps _ (match ?x with _ => _ end) => destruct x
    end ].
Section Accept.
Variable G : cfg.
Lemma header_none s r : e_recvs (s_env s) = 0 :: r ->
  getIncomingHeader s = Ret (NoDataAvailable, None) (mkSt (s_ctx s) (env_recv (s_env s) (e_in (s_env s)) r)) [EIn []].
Proof. intro E. unfold getIncomingHeader, getIncomingPacketTypeAndLength, pull_recv, trecv. rewrite E. reflexivity. Qed.
Lemma header_both s a b r l : e_recvs (s_env s) = a :: b :: r -> 0 < a -> 0 < b -> e_in (s_env s) = 32 :: 2 :: l ->
  getIncomingHeader s = Ret (Success, Some (32, 2)) (mkSt (s_ctx s) (env_recv (s_env s) l r)) [EIn [32]; EIn [2]].
Proof.
  intros E Ha Hb Ei. unfold getIncomingHeader, getIncomingPacketTypeAndLength.
  assert (P1 : pull_recv (s, [], false) = (1, 32, (mkSt (s_ctx s) (env_recv (s_env s) (2 :: l) (b :: r)), [EIn [32]], false))).
  { unfold pull_recv, trecv. rewrite E, Ei. replace (a <? 0) with false by lia. replace (Z.min a 1) with 1 by lia. reflexivity. }
  rewrite P1. change (1 =? 1) with true. change (incomingPacketValid 32) with true. cbv iota. unfold getRemainingLength. cbn [getRemainingLength_loop].
  change (2097152 <? 1) with false. cbv iota.
  assert (P2 : pull_recv (mkSt (s_ctx s) (env_recv (s_env s) (2 :: l) (b :: r)), [EIn [32]], false) = (1, 2, (mkSt (s_ctx s) (env_recv (s_env s) l r), [EIn [32]; EIn [2]], false))).
  { unfold pull_recv, trecv. cbn [s_env env_recv e_recvs e_in s_ctx]. replace (b <? 0) with false by lia. replace (Z.min b 1) with 1 by lia. reflexivity. }
  rewrite P2. reflexivity.
Qed.
Lemma connack_comes a b rv l tmo x0 : 0 < a -> 0 < b -> 0 <= tmo < 4294967296 -> 0 <= g_retry G <= 65535 -> forall k fuel lc s h s' t,
  e_recvs (s_env s) = repeat 0 k ++ a :: b :: rv -> e_in (s_env s) = 32 :: 2 :: l -> connack_loop G fuel tmo (u32 x0) lc s = Ret h s' t ->
  (forall ts, e_times (s_env s) = ts ++ e_times (s_env s') -> 0 < tmo -> brisk tmo (x0 :: ts)) -> (tmo = 0 -> 0 <= lc /\ lc + Z.of_nat k <= g_retry G) ->
  h = (Success, Some (32, 2)) /\ s_ctx s' = s_ctx s /\ e_in (s_env s') = l /\ e_recvs (s_env s') = rv /\ used s s'.
Proof.
  intros Ha Hb Ht Hg. induction k as [|k IH]; intros fuel lc s h s' t Er Ei H Hc Hl; (destruct fuel as [|fuel]; cbn [connack_loop] in H; [discriminate|]).
  - cbn [repeat app] in Er. apply bind_inv in H. destruct H as (h1 & s1 & t1 & t2 & H1 & H & ->). rewrite (header_both _ _ _ _ _ Er Ha Hb Ei) in H1. injection H1 as <- <- <-. cbv iota beta in H.
    apply bind_inv in H. destruct H as ((stop, lc2) & s2 & t3 & t4 & H2 & H & ->). cbn [status_beq andb] in H. apply ret_inv in H. destruct H as (-> & -> & _).
    split; [reflexivity|]. destruct (0 <? tmo).
    + apply bind_inv in H2. destruct H2 as (now & s3 & t5 & t6 & H3 & H2 & _). apply getTime_inv in H3. destruct H3 as (y & r & Ey & -> & -> & ->). apply ret_inv in H2. destruct H2 as (_ & -> & _).
      repeat split. exists [y]. exact Ey.
    + apply ret_inv in H2. destruct H2 as (_ & -> & _). repeat split. exists []. reflexivity.
  - cbn [repeat app] in Er. apply bind_inv in H. destruct H as (h1 & s1 & t1 & t2 & H1 & H & ->). rewrite (header_none _ _ Er) in H1. injection H1 as <- <- <-. cbv iota beta in H.
    apply bind_inv in H. destruct H as ((stop, lc2) & s2 & t3 & t4 & H2 & H & ->). cbn [status_beq andb] in H.
    destruct (0 <? tmo) eqn:E0.
    + apply bind_inv in H2. destruct H2 as (now & s3 & t5 & t6 & H3 & H2 & _). apply getTime_inv in H3. destruct H3 as (y & r & Ey & -> & -> & ->). cbn [s_env env_recv e_times] in Ey.
      apply ret_inv in H2. destruct H2 as (Est & -> & ->). injection Est as -> ->.
      destruct (tmo <=? elapsed (u32 y) (u32 x0)) eqn:E1; cbn [negb] in H.
      * exfalso. apply ret_inv in H. destruct H as (_ & -> & _). specialize (Hc [y] Ey ltac:(lia)). apply brisk_head in Hc; lia.
      * assert (U : exists u, r = u ++ e_times (s_env s')).
        { apply (IH fuel lc) in H; [destruct H as (_ & _ & _ & _ & (u & U)); exists u; exact U|reflexivity|exact Ei| |lia].
          intros ts Ets _. cbn [s_env env_times e_times] in Ets. apply (brisk_skip tmo x0 [y] ts). apply (Hc (y :: ts)); [rewrite Ey, Ets; reflexivity|lia]. }
        apply (IH fuel lc) in H; [|reflexivity|exact Ei| |lia].
        -- destruct H as (-> & -> & -> & -> & _). repeat split. destruct U as (u & ->). exists (y :: u). exact Ey.
        -- intros ts Ets _. cbn [s_env env_times e_times] in Ets. apply (brisk_skip tmo x0 [y] ts). apply (Hc (y :: ts)); [rewrite Ey, Ets; reflexivity|lia].
    + apply ret_inv in H2. destruct H2 as (Est & -> & ->). injection Est as -> ->. assert (tmo = 0) by lia. destruct (Hl H0) as (Hl1 & Hl2).
      replace (g_retry G <=? lc) with false in H by lia. cbn [negb] in H. apply (IH fuel) in H; [|reflexivity|exact Ei|intros; lia|].
      * destruct H as (-> & -> & -> & -> & U). repeat split. exact U.
      * intros _. unfold u16. rewrite Z.mod_small by lia. lia.
Qed.
Lemma recv_into_answers off n a rest s x s' t : e_recvs (s_env s) = a :: rest -> 0 <= a -> n <= zlen (e_in (s_env s)) -> 0 <= n ->
  recv_into off n s = Ret x s' t -> x = Z.min a n /\ e_recvs (s_env s') = rest /\ zlen (e_in (s_env s')) = zlen (e_in (s_env s)) - Z.min a n /\ e_times (s_env s') = e_times (s_env s).
Proof.
  intros Er Ha Hn Hn0 H. unfold recv_into in H. apply bind_inv in H. destruct H as (c & s1 & t1 & t2 & H1 & H & _). apply getc_inv in H1. destruct H1 as (-> & -> & _).
  apply bind_inv in H. destruct H as (u & s2 & t3 & t4 & H1 & H & _). apply massert_inv in H1. destruct H1 as (_ & -> & _).
  apply bind_inv in H. destruct H as ((r, bs) & s3 & t5 & t6 & H1 & H & _). apply trecv_inv in H1. destruct H1 as (y & q & Ey & [(Hy & _)|(Hy & k & -> & EE & _ & ->)]); [rewrite Er in Ey; injection Ey as <- _; lia|].
  rewrite Er in Ey. injection Ey as <- <-. injection EE as -> ->. apply bind_inv in H. destruct H as (u2 & s4 & t7 & t8 & H1 & H & _). apply modc_inv in H1. destruct H1 as (-> & _).
  apply ret_inv in H. destruct H as (-> & -> & _). cbn [s_env env_recv e_in e_recvs e_times]. unfold zlen in *. rewrite firstn_length, skipn_length. repeat split; lia.
Qed.
Lemma exact_comes rv : 0 < g_poll G < 4294967296 -> forall n l, arrives n l -> forall fuel off total x0 s r s' t,
  e_recvs (s_env s) = l ++ rv -> n <= zlen (e_in (s_env s)) -> recvExact_loop G fuel off n total (u32 x0) s = Ret r s' t ->
  (forall ts, e_times (s_env s) = ts ++ e_times (s_env s') -> brisk (g_poll G) (x0 :: ts)) -> r = total + n /\ used s s'.
Proof.
  intros Hp n l Ha. induction Ha as [|n l Hn Ha IH|n a l Hn Hpos Ha IH]; intros fuel off total x0 s r s' t Er Hi H Hc; (destruct fuel as [|fuel]; cbn [recvExact_loop] in H; [discriminate|]).
  - change (0 <? 0) with false in H. cbv iota in H. apply ret_inv in H. destruct H as (-> & -> & _). split; [lia|exists []; reflexivity].
  - replace (0 <? n) with true in H by lia. apply bind_inv in H. destruct H as (x & s1 & t1 & t2 & H1 & H & _).
    assert (E1 : x = 0 /\ e_recvs (s_env s1) = l ++ rv /\ zlen (e_in (s_env s1)) = zlen (e_in (s_env s)) /\ e_times (s_env s1) = e_times (s_env s)).
    { apply (recv_into_answers _ _ 0 (l ++ rv)) in H1; [|exact Er|lia|exact Hi|lia]. destruct H1 as (-> & K1 & K2 & K3). replace (Z.min 0 n) with 0 in * by lia. split; [reflexivity|]. split; [exact K1|]. split; [lia|exact K3]. }
    destruct E1 as (-> & E1 & E2 & E3). change (0 <? 0) with false in H. cbv iota in H.
    apply bind_inv in H. destruct H as (now & s2 & t3 & t4 & H2 & H & _). apply getTime_inv in H2. destruct H2 as (y & q & Ey & -> & -> & ->). rewrite E3 in Ey.
    destruct (g_poll G <=? elapsed (u32 y) (u32 x0)) eqn:E4.
    + exfalso. apply ret_inv in H. destruct H as (_ & -> & _). cbn [s_env env_times e_times] in Hc. specialize (Hc [y] Ey). apply brisk_head in Hc; lia.
    + assert (K : r = total + n /\ used (mkSt (s_ctx s1) (env_times (s_env s1) q)) s').
      { eapply IH; [exact E1|cbn [s_env env_times e_in]; rewrite E2; exact Hi|exact H|]. intros ts Ets. cbn [s_env env_times e_times] in Ets. apply (brisk_skip _ x0 [y] ts). apply (Hc (y :: ts)). rewrite Ey, Ets. reflexivity. }
      destruct K as (-> & (u & U)). split; [reflexivity|]. exists (y :: u). cbn in U. rewrite Ey, U. reflexivity.
  - replace (0 <? n) with true in H by lia. apply bind_inv in H. destruct H as (x & s1 & t1 & t2 & H1 & H & _).
    assert (E1 : x = Z.min a n /\ e_recvs (s_env s1) = l ++ rv /\ zlen (e_in (s_env s1)) = zlen (e_in (s_env s)) - Z.min a n /\ e_times (s_env s1) = e_times (s_env s)).
    { apply (recv_into_answers _ _ a (l ++ rv)) in H1; [exact H1|exact Er|lia|exact Hi|lia]. }
    destruct E1 as (-> & E1 & E2 & E3). replace (Z.min a n <? 0) with false in H by lia. replace (0 <? Z.min a n) with true in H by lia.
    apply bind_inv in H. destruct H as (now & s2 & t3 & t4 & H2 & H & _). apply getTime_inv in H2. destruct H2 as (y & q & Ey & -> & -> & ->). rewrite E3 in Ey.
    apply bind_inv in H. destruct H as (u & s3 & t5 & t6 & H2 & H & _). apply massert_inv in H2. destruct H2 as (_ & -> & _).
    assert (K : r = total + Z.min a n + (n - Z.min a n) /\ used (mkSt (s_ctx s1) (env_times (s_env s1) q)) s').
    { eapply IH; [exact E1|cbn [s_env env_times e_in]; rewrite E2; lia|exact H|]. intros ts Ets. cbn [s_env env_times e_times] in Ets. apply (brisk_tail _ x0 (y :: ts)). apply (Hc (y :: ts)). rewrite Ey, Ets. reflexivity. }
    destruct K as (-> & (w & U)). split; [lia|]. exists (y :: w). cbn in U. rewrite Ey, U. reflexivity.
Qed.
Lemma brisk_weak B C l : B <= C -> brisk B l -> brisk C l.
Proof.
  intros H. induction 1 as [|a l Ha Hl IH]; constructor; [|exact IH]. rewrite Forall_forall in *. intros b Hb. specialize (Ha b Hb). cbn in Ha. lia.
Qed.
Lemma connack_accepted B tmo clean k a b pieces rv p inp s r s' t :
  B <= g_poll G < 4294967296 -> 0 < g_poll G -> 0 <= tmo < 4294967296 -> 0 <= g_retry G <= 65535 -> (if 0 <? tmo then B <= tmo else Z.of_nat k <= g_retry G) ->
  0 < a -> 0 < b -> arrives 2 pieces -> 2 <= zlen (x_buf (s_ctx s)) ->
  e_recvs (s_env s) = repeat 0 k ++ a :: b :: pieces ++ rv -> e_in (s_env s) = 32 :: 2 :: (if p : bool then 1 else 0) :: 0 :: inp ->
  receiveConnack G tmo clean s = Ret r s' t -> within B s s' ->
  r = (if clean && p then BadResponse else Success, Some p).
Proof.
  intros HB HB0 Ht Hg Hk Ha Hb Hp Hbuf Er Ei H W. apply within_brisk in W. destruct W as (ts & Ets & Hts).
  unfold receiveConnack in H.
  apply bind_inv in H. destruct H as (t0 & s1 & t1 & t2 & H1 & H & _). apply getTime_inv in H1. destruct H1 as (x & q & Ex & -> & -> & _).
  apply bind_inv in H. destruct H as (e & s2 & t3 & t4 & H1 & H & _). apply gete_inv in H1. destruct H1 as (-> & -> & _).
  apply bind_inv in H. destruct H as ((st1, h1) & s3 & t5 & t6 & H1 & H & _).
  assert (U : used s3 s').
  { destruct st1; try (apply ret_inv in H; destruct H as (_ & -> & _); exists []; reflexivity). destruct h1 as [(ty, rm)|]; [|apply ret_inv in H; destruct H as (_ & -> & _); exists []; reflexivity].
    match type of H with ?m s3 = _ => assert (K : fine G (fun _ => True) m) end.
    { apply f_keeps. unfold receivePacket. cbv zeta. tr. }
    apply (K _ _ _ _ H). }
  destruct U as (u & U).
  apply (connack_comes a b (pieces ++ rv) ((if p then 1 else 0) :: 0 :: inp) tmo x Ha Hb Ht Hg k) in H1;
    [|exact Er|exact Ei| |intro; replace (0 <? tmo) with false in Hk by lia; lia].
  2:{ intros v Ev Hv. replace (0 <? tmo) with true in Hk by lia. cbn [s_env env_times e_times] in Ev. apply (brisk_weak B); [exact Hk|].
      assert (ts = (x :: v) ++ u) as -> by (rewrite Ex, Ev, U in Ets; apply (app_inv_tail (e_times (s_env s'))); rewrite <- Ets, <- app_assoc; reflexivity).
      now apply brisk_take in Hts. }
  destruct H1 as (Eh & Ec & Ein & Erv & (v & Ev)). injection Eh as -> ->. cbn [s_env env_times e_times s_ctx] in Ev, Ec. cbv iota in H.
  apply bind_inv in H. destruct H as (now & s4 & t7 & t8 & H1 & H & _). apply getTime_inv in H1. destruct H1 as (y & q2 & Ey & -> & -> & _).
  apply bind_inv in H. destruct H as (st4 & s5 & t9 & t10 & H1 & H & _). change (32 =? PKT_CONNACK) with true in H1. cbv iota in H1.
  unfold receivePacket in H1. apply bind_inv in H1. destruct H1 as (c & s6 & t11 & t12 & H2 & H1 & _). apply getc_inv in H2. destruct H2 as (-> & -> & _). cbn [s_ctx] in H1. rewrite Ec in H1.
  replace (zlen (x_buf (s_ctx s)) <? 2) with false in H1 by lia. apply bind_inv in H1. destruct H1 as (z & s7 & t13 & t14 & H2 & H1 & _). apply ret_inv in H1. destruct H1 as (-> & -> & _).
  pose proof (recvExact_spec _ _ _ _ _ _ H2) as (bs & err & (Q1 & Q2 & Q3 & Q4 & Q5) & Q6 & Q7 & Q8).
  assert (E7 : e_times (s_env s7) = e_times (s_env s')).
  { destruct (status_beq _ _); [|apply ret_inv in H; destruct H as (_ & -> & _); reflexivity]. apply bind_inv in H. destruct H as (c & s8 & ? & ? & H3 & H & _). apply getc_inv in H3. destruct H3 as (_ & -> & _).
    apply bind_inv in H. destruct H as (w & s8 & ? & ? & H3 & H & _). apply lift_inv in H3. destruct H3 as (_ & -> & _). destruct w as ((w1 & w2), w3). apply ret_inv in H. destruct H as (_ & -> & _). reflexivity. }
  assert (z = 2).
  { unfold recvExact in H2. apply bind_inv in H2. destruct H2 as (c & s8 & ? & ? & H3 & H2 & _). apply getc_inv in H3. destruct H3 as (_ & -> & _).
    apply bind_inv in H2. destruct H2 as (w & s8 & ? & ? & H3 & H2 & _). apply massert_inv in H3. destruct H3 as (_ & -> & _).
    apply bind_inv in H2. destruct H2 as (w2 & s8 & ? & ? & H3 & H2 & _). apply getTime_inv in H3. destruct H3 as (xr & qr & Exr & -> & -> & _). cbn [s_env env_times e_times] in Exr.
    apply bind_inv in H2. destruct H2 as (w2 & s8 & ? & ? & H3 & H2 & _). apply gete_inv in H3. destruct H3 as (-> & -> & _).
    apply (exact_comes rv ltac:(lia) 2 pieces Hp) in H2; [destruct H2 as (-> & _); reflexivity|exact Erv|cbn [s_env env_times e_in]; rewrite Ein; rewrite !zlen_cons; pose proof (zlen_nonneg inp); lia|].
    intros wr Ewr. cbn [s_env env_times e_times] in Ewr. apply (brisk_weak B); [lia|].
    assert (ts = (x :: v ++ [y]) ++ xr :: wr) as -> by (rewrite Ex, Ev, Ey, Exr, Ewr, E7 in Ets; apply (app_inv_tail (e_times (s_env s'))); rewrite <- Ets; cbn [app]; rewrite <- !app_assoc; reflexivity).
    now apply brisk_drop in Hts. }
  subst z. destruct err; [lia|]. cbn [s_ctx s_env env_times e_in] in Q3, Q5. rewrite Ein in Q3. destruct Q5 as (_ & Q5).
  assert (bs = [if p then 1 else 0; 0]) as ->.
  { destruct bs as [|b1 [|b2 [|b3 bs]]]; rewrite ?zlen_cons, ?zlen_nil in Q8; try lia; [|pose proof (zlen_nonneg bs); lia]. cbn [app] in Q3. injection Q3 as <- <- _. reflexivity. }
  change (2 =? 2) with true in H. cbv iota in H. cbn [status_beq] in H.
  apply bind_inv in H. destruct H as (c & s8 & ? & ? & H3 & H & _). apply getc_inv in H3. destruct H3 as (-> & -> & _). rewrite Q5 in H. cbn [x_buf set_buf] in H.
  set (bf := store_at (x_buf (s_ctx s)) 0 [if p then 1 else 0; 0]) in *.
  assert (Hb2 : firstn (Z.to_nat 2) bf = [if p then 1 else 0; 0]) by (apply (store_at_0 (x_buf (s_ctx s)) [if p then 1 else 0; 0]); exact Hbuf).
  destruct (connack_decode 2 bf) as (sp1 & Ed & Esp); [split; [lia|]; unfold bf; rewrite store_at_len; [exact Hbuf|lia|exact Hbuf]|rewrite Hb2; destruct p; repeat constructor; unfold is_byte; lia|].
  change PKT_CONNACK with 32 in Ed. rewrite Hb2 in Ed, Esp.
  assert (Er2 : connack_result [if p then 1 else 0; 0] = (Success, Some p)) by (destruct p; reflexivity). rewrite Er2 in Ed, Esp. cbn [fst snd] in Ed, Esp. rewrite Esp in Ed by discriminate.
  unfold bind at 1, lift in H. rewrite Ed in H. cbv iota beta in H. unfold ret in H. cbn [status_beq andb] in H. destruct clean, p; cbn [andb] in H |- *; congruence.
Qed.

Lemma u32_used (s s' : st) : e_times (s_env s) = e_times (s_env s') -> used s s'.
Proof. intro E. exists []. exact E. Qed.
Lemma connect_accepts B n m ci will cm tmo k a b pieces rv p inp s st sp s' t :
  0 <= g_sendto G < 4294967296 -> B <= g_sendto G -> B <= g_poll G < 4294967296 -> 0 < g_poll G -> 0 <= tmo < 4294967296 -> 0 <= g_retry G <= 65535 ->
  (if 0 <? tmo then B <= tmo else Z.of_nat k <= g_retry G) ->
  con_means ci will cm -> cm_id cm <> [] -> will_fits cm = true -> Begun G n m s -> x_status (s_ctx s) = NotConnected -> 2 <= zlen (x_buf (s_ctx s)) ->
  0 < a -> 0 < b -> arrives 2 pieces ->
  e_recvs (s_env s) = repeat 0 k ++ a :: b :: pieces ++ rv -> e_in (s_env s) = 32 :: 2 :: (if p : bool then 1 else 0) :: 0 :: inp -> (c_clean ci = true -> p = false) ->
  connect G ci will tmo s = Ret (st, sp) s' t -> errs t = false -> within B s s' -> (forall id, ~ In (id, None) (retrieved t)) ->
  st = Success /\ sp = Some p.
Proof.
  intros Hto HB1 HB2 Hp Ht Hg Hk Hm Hid Hwf HS Hs Hbuf Ha Hb Har Er Ei Hcl H He HW Hret.
  assert (HSm : smooth G s s' t).
  { split; [exact He|]. destruct HW as (ts & E & Hso & Hd). exists ts. split; [exact E|]. split; [exact Hso|]. intros x y Hx Hy. specialize (Hd x y Hx Hy). lia. }
  pose proof (f_connect G Hto ci will tmo _ _ _ _ H) as (_ & NSF). specialize (NSF HSm). cbn [fst] in NSF.
  pose proof (begun_reach _ _ _ _ HS) as Hr. pose proof (begun_bytes _ _ _ _ HS) as Hby.
  unfold connect in H. rewrite (SerProofs2.connect_size_ok _ _ _ Hm Hid), Hwf in H.
  apply bind_inv in H. destruct H as ((sta, spa) & sa & ta & tb & H1 & H & ->).
  apply bind_inv in H1. destruct H1 as (c & sb & tc & td & H2 & H1 & ->). apply getc_inv in H2. destruct H2 as (-> & -> & ->). rewrite Hs in H1. cbn [status_beq app] in H1, HSm, Hret |- *.
  apply bind_inv in H1. destruct H1 as (st1 & s1 & t1 & te & H2 & H1 & ->).
  apply bind_inv in H1. destruct H1 as ((st2, sp2) & s3 & t3 & th & H3 & H1 & ->).
  apply bind_inv in H1. destruct H1 as (st4 & s4 & t4 & ti & H4 & H1 & ->).
  apply bind_inv in H. destruct H as (st5 & s5 & t5 & tj & H5 & H & ->).
  (* the clock readings of the parts *)
  assert (U1 : used s s1) by apply (f_sendConnect G Hto _ _ _ _ _ _ _ H2).
  assert (U2 : used s1 s3) by (destruct (status_beq st1 Success); [apply (f_connack G tmo (c_clean ci) _ _ _ _ H3)|apply ret_inv in H3; destruct H3 as (_ & -> & _); now exists []]).
  assert (U3 : used s3 s4) by (destruct (_ && _) in H4; [apply (f_clean G _ _ _ _ H4)|apply ret_inv in H4; destruct H4 as (_ & -> & _); now exists []]).
  assert (U4 : used s4 sa).
  { apply bind_inv in H1. destruct H1 as (u & sx & ? & ? & H6 & H1 & _). apply ret_inv in H1. destruct H1 as (_ & -> & _).
    destruct (status_beq st4 Success); [apply modc_inv in H6; destruct H6 as (-> & _)|apply ret_inv in H6; destruct H6 as (_ & -> & _)]; now exists []. }
  assert (U5 : used sa s5) by (destruct (_ && _) in H5; [apply (f_resume G Hto _ _ _ _ H5)|apply ret_inv in H5; destruct H5 as (_ & -> & _); now exists []]).
  assert (U6 : used s5 s').
  { apply bind_inv in H. destruct H as (u & sx & ? & ? & H6 & H & _). apply ret_inv in H. destruct H as (_ & -> & _).
    destruct (_ || _) in H6; [apply ret_inv in H6; destruct H6 as (_ & -> & _)|apply modc_inv in H6; destruct H6 as (-> & _)]; now exists []. }
  assert (V : used s3 s') by (eapply used_trans; [exact U3|]; eapply used_trans; [exact U4|]; eapply used_trans; eauto).
  destruct (within_split B s s1 s' U1 (used_trans _ _ _ U2 V) HW) as (W1 & W2). destruct (within_split B s1 s3 s' U2 V W2) as (W3 & _). clear W2.
  (* CONNECT goes out *)
  assert (E1 : st1 = Success).
  { destruct (f_sendConnect G Hto _ _ _ _ _ _ _ H2) as (_ & N). assert (C : smooth G s s1 t1).
    { split; [rewrite !errs_app in He; destruct (errs t1); [discriminate|reflexivity]|]. destruct W1 as (ts & E & Hso & Hd). exists ts. split; [exact E|]. split; [exact Hso|]. intros x y Hx Hy. specialize (Hd x y Hx Hy). lia. }
    specialize (N C). clear - H2 N Hm. unfold sendConnectWithoutCopy in H2.
    assert (E : match will with Some wl => match p_topic wl with None => true | _ => false end | None => false end = false).
    { destruct Hm as (_ & _ & _ & _ & _ & _ & _ & Hw). destruct will as [w|], (cm_will cm); try contradiction; [|reflexivity]. destruct Hw as (_ & _ & (x & -> & _) & _). reflexivity. }
    rewrite E in H2. apply bind_inv in H2. destruct H2 as (vs & sx & ? & ? & H6 & H2 & _). apply bind_inv in H2. destruct H2 as (r & sy & ? & ? & H7 & H2 & _). apply ret_inv in H2. destruct H2 as (-> & _).
    destruct (negb _); [now contradiction N|reflexivity]. }
  subst st1. cbn [status_beq] in H3.
  assert (X1 : (exists l, s_ctx s1 = set_lastTx (s_ctx s) l) /\ e_in (s_env s1) = e_in (s_env s) /\ e_recvs (s_env s1) = e_recvs (s_env s)).
  { unfold sendConnectWithoutCopy in H2. destruct (match will with Some _ => _ | None => _ end) in H2; [apply ret_inv in H2; destruct H2 as (? & _); discriminate|].
    apply bind_inv in H2. destruct H2 as (vs & sx & ? & ? & H6 & H2 & _). apply lift_inv in H6. destruct H6 as (_ & -> & _).
    apply bind_inv in H2. destruct H2 as (r & sy & ? & ? & H7 & H2 & _). apply ret_inv in H2. destruct H2 as (_ & -> & _).
    apply sendMessageVector_spec, sent_ok_sentb in H7. split; [eapply sentb_nc; eauto|]. destruct H7 as (? & ? & _ & _ & _ & (xa & xb & ->) & _). auto. }
  destruct X1 as ((l1 & X1) & X2 & X3).
  pose proof (receiveConnack_spec _ _ _ _ _ _ _ _ ltac:(rewrite X2; exact Hby) ltac:(rewrite X1; exact Hs) H3) as (_ & bb & _ & _ & _ & _ & _ & _ & Y1 & _).
  pose proof (connack_accepted B tmo (c_clean ci) k a b pieces rv p inp s1 _ _ _ HB2 Hp Ht Hg Hk Ha Hb Har ltac:(rewrite X1; exact Hbuf) ltac:(rewrite X3; exact Er) ltac:(rewrite X2; exact Ei) H3 W3) as Y2.
  assert (Y3 : c_clean ci && p = false) by (destruct (c_clean ci), p; try reflexivity; now specialize (Hcl eq_refl)). rewrite Y3 in Y2. injection Y2 as -> ->. cbn [status_beq andb] in H4.
  assert (E4 : st4 = Success /\ (p = true -> s4 = s3)).
  { destruct p; [apply ret_inv in H4; destruct H4 as (-> & -> & _); auto|]. split; [|discriminate]. unfold handleCleanSession in H4.
    repeat (apply bind_inv in H4; destruct H4 as (? & ? & ? & ? & _ & H4 & _)). apply ret_inv in H4. tauto. }
  destruct E4 as (-> & E4). cbn [status_beq] in H1. apply bind_inv in H1. destruct H1 as (u & sx & ? & ? & H6 & H1 & ->). apply modc_inv in H6. destruct H6 as (-> & ->).
  apply ret_inv in H1. destruct H1 as (EE & -> & ->). assert (sta = Success /\ spa = Some p) as (-> & ->) by (split; congruence). clear EE. cbn [status_beq andb] in H5.
  apply bind_inv in H. destruct H as (u2 & sx & ? & ? & _ & H & ->). apply ret_inv in H. destruct H as (EE & -> & ->). assert (st = st5 /\ sp = Some p) as (-> & ->) by (split; congruence). clear EE.
  split; [|reflexivity]. destruct p; [|apply ret_inv in H5; tauto]. rewrite (E4 eq_refl) in H5.
  eapply resume_spec in H5; [|cbn [s_ctx set_keep set_status x_recs]; rewrite Y1, X1; exact Hr|reflexivity].
  destruct H5 as (_ & _ & done & got & Rt & K).
  destruct K as [(-> & _)|(_ & [(-> & _)|(_ & id & rest & _ & [(-> & -> & _)|(-> & _)])])]; try reflexivity; try (now contradiction NSF).
  exfalso. apply (Hret id). cbn [app]. unfold retrieved in *. rewrite !flat_map_app, Rt. rewrite !in_app_iff. cbn [In]. auto 10.
Qed.
Lemma connect_calm B n m ci will cm tmo k p s st sp s' t : patient G tmo B k ->
  con_means ci will cm -> cm_id cm <> [] -> will_fits cm = true -> Begun G n m s -> x_status (s_ctx s) = NotConnected -> 2 <= zlen (x_buf (s_ctx s)) ->
  connack_on_its_way k p s -> (c_clean ci = true -> p = false) ->
  connect G ci will tmo s = Ret (st, sp) s' t -> errs t = false -> within B s s' -> (forall id, ~ In (id, None) (retrieved t)) ->
  st = Success /\ sp = Some p /\ x_status (s_ctx s') = Connected.
Proof.
  intros (P1 & P2 & P3 & P4 & P5 & P6 & P7) Hm Hid Hwf HS Hs Hb (a & b & pieces & rv & inp & A1 & A2 & A3 & A4 & A5) Hc H He HW Hr.
  pose proof H as H0. apply (connect_accepts B n m ci will cm tmo k a b pieces rv p inp) in H; auto; try lia. destruct H as (-> & ->). split; [reflexivity|]. split; [reflexivity|].
  eapply begun_connect in H0; eauto. destruct H0 as [(E & _)|(_ & _ & [(_ & E & _)|[(_ & _ & _ & _ & E & _)|(_ & _ & _ & _ & _ & E & _)]])]; try discriminate; try exact E. now contradiction E.
Qed.
End Accept.
