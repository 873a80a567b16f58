(** The client used from several threads is the abstract client: the loops. *)
From Verif Require Import Base StateModel StateSpec StateHarness StateProofs StateProofs2 SerModel WireSpec SerHarness SerProofs SerProofs2 SerProofs3 SerProofs4 SerProofs5
  CoreModel CoreHarness CoreSpec CoreProofs CoreProofs2 CoreProofs3 CoreProofs4 CoreProofs5 CoreProofs6 CoreProofs7 CoreProofs8 CoreProofs9 CoreProofs10 CoreProofs11 CoreProofs12 CoreProofs13 CoreProofs14 CoreProofs15 CoreProofs16 CoreProofs17 CoreProofs18 CoreProofs19 CoreProofs20 CoreProofs21 CoreProofs22 CoreFinal2 ConcModel ConcHarness ConcProofs ConcProofs2 ConcProofs3 ConcProofs4 Machine MachProofs MachProofs2.

Section MP3.
Context {cc : may_start}.
Variable G : cfg.
Variables n m : nat.
Variables rt cn : bool.
Hypothesis HM : 4294967296 <= g_M G.
Hypothesis HV : 3 <= g_maxvec G.
Hypothesis HB : g_big G = false.
Notation good := (good n m).
Notation fits := (op_fits (g_M G) cn).
Notation mstep := (mstep rt cn).
Notation ms := (ms n m).
Notation does := (does n m rt cn).
Notation Inv := (Inv G n m rt cn).
Notation logs := (logs G n m rt cn).
Notation act := (act G n m rt cn).
Local Notation "'let^' x ':=' m 'in' k" := (cbind m (fun x => k))
  (at level 200, x pattern, m at level 100, k at level 200).
Local Notation "m ;^ k" := (cbind m (fun _ => k)) (at level 190, right associativity).
Let lb := @logs_bind cc G n m rt cn.
Let lv := @logs_visit cc G n m rt cn HM HB.

Lemma logs_recv off k s : logs Idle (visit G (recv_into off k)) s (fun r j' _ => j' = if r <? 0 then Failed else Idle).
Proof.
  apply lv. intros s1 t1 _ I1 r s2 t2 H. apply recv_into_inv in H.
  destruct H as (H1 & H2 & Hroom & [(Hx & -> & (rv & Ee & a & Ea) & Ec)|(bs & Hx & Hn & -> & Ei & (rv & Ee & a & Ea) & Ec)]).
  - exists Failed. split; [apply (inv_same G n m rt cn s1); auto; rewrite ?Ec, ?Ee; reflexivity|]. split; [exact I|]. split; [|replace (r <? 0) with true by lia; reflexivity].
    apply does_event; [reflexivity|]. unfold MachProofs.ms. rewrite (session_same n m s1 s2) by (rewrite Ec; reflexivity). rewrite Ec. apply s_read_error.
  - pose proof (CoreProofs.zlen_nonneg bs). exists Idle. split; [apply (inv_same G n m rt cn s1); auto; first [rewrite Ec; reflexivity|rewrite Ee; reflexivity]|]. split; [exact I|]. split; [|replace (r <? 0) with false by lia; reflexivity].
    apply does_event; [reflexivity|]. unfold MachProofs.ms. rewrite (session_same n m s1 s2) by (rewrite Ec; reflexivity). rewrite Ec. apply s_read.
Qed.
Lemma logs_time j s : logs j (visit G getTime) s (fun _ j' _ => j' = j).
Proof.
  apply logs_inv. intros _ Hj. apply lv. intros s1 t1 _ I1 a s2 t2 H. apply getTime_inv in H. destruct H as (x & r & E & -> & -> & ->).
  apply act_still; try reflexivity; auto.
Qed.
Lemma logs_look {A} j (f : context -> A) s : logs j (visit G (let* c := getc in ret (f c))) s (fun _ j' _ => j' = j).
Proof.
  apply logs_inv. intros _ Hj. apply lv. intros s1 t1 _ I1 a s2 t2 H. mgo H. apply act_still; try reflexivity; auto.
Qed.
Lemma logs_visitc j s : logs j (visit G getc) s (fun c j' s' => j' = j /\ c = s_ctx s').
Proof.
  apply logs_inv. intros _ Hj. apply lv. intros s1 t1 _ I1 a s2 t2 H. mgo H. apply act_still; try reflexivity; auto.
Qed.
Lemma logs_gete j s : logs j (atomic gete) s (fun _ j' _ => j' = j).
Proof.
  apply logs_inv. intros HI Hj. apply logs_atomic. intros a s' t H. apply gete_inv in H. destruct H as (-> & -> & ->). apply act_still; try reflexivity; auto.
Qed.
Lemma logs_massert j b s : logs j (atomic (massert b)) s (fun _ j' _ => j' = j).
Proof.
  apply logs_inv. intros HI Hj. apply logs_atomic. intros a s' t H. apply massert_inv in H. destruct H as (H & -> & ->). apply act_still; try reflexivity; auto.
Qed.
Lemma logs_mod j f s : (forall c, x_recs (f c) = x_recs c /\ x_nextId (f c) = x_nextId c /\ x_status (f c) = x_status c /\ x_retr (f c) = x_retr c) ->
  logs j (visit G (modc f)) s (fun _ j' _ => j' = j).
Proof.
  intro Hf. apply logs_inv. intros _ Hj. apply lv. intros s1 t1 _ I1 a s2 t2 H. apply modc_inv in H. destruct H as (-> & ->).
  destruct (Hf (s_ctx s1)) as (F1 & F2 & F3 & F4). apply act_still; auto.
Qed.
Lemma logs_stuck {A} j s (R : A -> job -> st -> Prop) : logs j (atomic stuck) s R.
Proof. apply logs_atomic. discriminate. Qed.

Lemma logs_recvExact_loop fuel : forall off k total last s, logs Idle (c_recvExact_loop G fuel off k total last) s (fun _ j' _ => j' = Idle).
Proof.
  induction fuel as [|fuel IH]; intros off k total last s; cbn [c_recvExact_loop]; [apply logs_stuck|]. destruct (0 <? k); [|now apply logs_ret].
  eapply lb; [apply logs_recv|]. cbv beta. intros r j1 s1 ->. destruct (r <? 0) eqn:Er.
  - eapply lb; [apply logs_broke; auto|]. cbv beta. intros _ j2 s2 ->. now apply logs_ret.
  - destruct (0 <? r).
    + eapply lb; [apply logs_time|]. cbv beta. intros now j2 s2 ->. eapply lb; [apply logs_massert|]. cbv beta. intros _ j3 s3 ->. apply IH.
    + eapply lb; [apply logs_time|]. cbv beta. intros now j2 s2 ->. destruct (g_poll G <=? _); [now apply logs_ret|apply IH].
Qed.
Lemma logs_recvExact k s : logs Idle (c_recvExact G k) s (fun _ j' _ => j' = Idle).
Proof.
  unfold c_recvExact. eapply (lb _ _ _ _ _ _ _ (fun _ j' _ => j' = Idle)).
  { apply logs_inv. intros HI Hj. apply logs_atomic. intros a s' t H. mgo H. apply act_still; try reflexivity; auto. }
  cbv beta. intros _ j1 s1 ->. eapply lb; [apply logs_time|]. cbv beta. intros now j2 s2 ->. eapply lb; [apply logs_gete|]. cbv beta. intros e j3 s3 ->.
  apply logs_recvExact_loop.
Qed.
Lemma logs_discardStored_loop fuel : forall btr rem total s, logs Idle (c_discardStored_loop G fuel btr rem total) s (fun _ j' _ => j' = Idle).
Proof.
  induction fuel as [|fuel IH]; intros btr rem total s; cbn [c_discardStored_loop]; [apply logs_stuck|]. destruct (total <? rem); [|now apply logs_ret].
  eapply lb; [apply logs_recvExact|]. cbv beta. intros r j1 s1 ->. destruct (negb _); [now apply logs_ret|apply IH].
Qed.
Lemma logs_discardStored ty rem hdr s : logs Idle (c_discardStoredPacket G ty rem hdr) s (fun _ j' _ => j' = Idle).
Proof.
  unfold c_discardStoredPacket. eapply (lb _ _ _ _ _ _ _ (fun _ j' _ => j' = Idle)).
  { apply lv. intros s1 t1 _ I1 c s2 t2 H. mgo H. exists Idle. split; auto. split; [exact I|]. split; auto. cbn [app]. apply does_event; [reflexivity|]. apply s_drop. }
  cbv beta. intros c j1 s1 ->. eapply lb; [apply logs_massert|]. cbv beta. intros _ j2 s2 ->. eapply lb; [apply logs_gete|]. cbv beta. intros e j3 s3 ->.
  eapply lb; [apply logs_discardStored_loop|]. cbv beta. intros total j4 s4 ->. eapply lb; [apply logs_mod; repeat split|]. cbv beta. intros _ j5 s5 ->. now apply logs_ret.
Qed.
Lemma logs_keepAlive s : logs Idle (c_handleKeepAlive G) s (fun _ j' _ => j' = Idle).
Proof.
  unfold c_handleKeepAlive. eapply lb; [apply logs_time|]. cbv beta. intros now j1 s1 ->. eapply lb; [apply logs_look|]. cbv beta. intros keep j2 s2 ->.
  eapply lb; [apply logs_look|]. cbv beta. intros waiting j3 s3 ->. destruct waiting.
  - eapply lb; [apply logs_look|]. cbv beta. intros pt j4 s4 ->. now apply logs_ret.
  - eapply (lb _ _ _ _ _ _ _ (fun _ j' _ => j' = Idle)).
    { apply logs_locked; auto. intros s4 t4 _ I4 a s5 t5 H. mgo H. apply act_still; try reflexivity; auto. }
    cbv beta. intros lt j4 s4 ->. destruct (_ && _); [apply logs_op; auto; exact I|].
    eapply lb; [apply logs_look|]. cbv beta. intros lr j5 s5 ->. destruct (_ && _); [apply logs_op; auto; exact I|now apply logs_ret].
Qed.
Lemma logs_handle mk type rem hdr s : rx_all G s -> got_header (s_ctx s) Success type rem hdr -> rem + hdr <= x_index (s_ctx s) ->
  logs Idle (c_handle G mk type rem hdr) s (fun _ j' _ => j' = Idle).
Proof.
  intros Hr Hh Hl. unfold c_handle.
  destruct (got_header_range _ _ _ _ _ _ (proj1 Hr) Hh eq_refl) as (G1 & G2 & G3 & G4 & h & rest & Ep & Hhd & El).
  pose proof Hr as ((R0 & R1 & R2 & R3 & R4) & R5).
  set (data := skipn (Z.to_nat hdr) (x_buf (s_ctx s))). set (body := firstn (Z.to_nat rem) data).
  eapply (lb _ _ _ _ _ _ _ (fun d j' _ => d = data /\ j' = Got type body)).
  { apply lv. intros s1 t1 Ho I1 d s2 t2 H. mgo H. destruct (path_same_rx _ _ _ (proj1 Ho)) as ((Eb & _) & _). rewrite Eb. fold data. fold body.
    exists (Got type body). split; auto. split; [exact I|]. split; [|auto]. cbn [app]. apply does_event; [reflexivity|]. apply s_packet. }
  cbv beta. intros d j1 s1 (-> & ->).
  assert (Ld : zlen data = zlen (x_buf (s_ctx s)) - hdr).
  { unfold data, zlen in *. rewrite skipn_length. lia. }
  assert (Hbody : bytes_ok body).
  { unfold bytes_ok in *. rewrite Forall_forall in *. intros x Hx'. apply R5.
    rewrite <- (firstn_skipn (Z.to_nat hdr) (x_buf (s_ctx s))). apply in_app_iff. right.
    rewrite <- (firstn_skipn (Z.to_nat rem) (skipn _ _)). apply in_app_iff. auto. }
  eapply lb; [apply logs_dispatch; auto; try lia; apply Hhd|]. cbv beta. intros st j2 s2 ->.
  eapply (lb _ _ _ _ _ _ _ (fun _ j' _ => j' = Idle)).
  { apply lv. intros s3 t3 _ I3 [] s4 t4 H. unfold shift_buffer in H. mgo H. apply act_still; try reflexivity; auto. }
  cbv beta. intros _ j3 s3 ->. eapply (lb _ _ _ _ _ _ _ (fun _ j' _ => j' = Idle)); [|cbv beta; intros _ j4 s4 ->; now apply logs_ret].
  destruct (status_beq st Success); [|now apply logs_ret]. eapply lb; [apply logs_time|]. cbv beta. intros now j4 s4 ->. apply logs_mod. repeat split.
Qed.
Lemma logs_lifted {A} j (r : R A) s : logs j (atomic (lift r)) s (fun _ j' _ => j' = j).
Proof.
  apply logs_inv. intros HI Hj. apply logs_atomic. intros a s' t H. apply lift_inv in H. destruct H as (H & -> & ->). apply act_still; try reflexivity; auto.
Qed.
Lemma logs_head r s : logs (if r <? 0 then Failed else Idle) (c_head G r) s (fun _ j' _ => j' = Idle).
Proof.
  unfold c_head. destruct (r <? 0).
  - eapply lb; [apply logs_broke; auto|]. cbv beta. intros _ j1 s1 ->. now apply logs_ret.
  - eapply lb; [apply logs_visitc|]. cbv beta. intros c j1 s1 (-> & _). destruct (_ && _); [now apply logs_ret|].
    eapply lb; [apply logs_mod; repeat split|]. cbv beta. intros _ j2 s2 ->. eapply lb; [apply logs_visitc|]. cbv beta. intros c' j3 s3 (-> & _).
    eapply lb; [apply logs_lifted|]. cbv beta. intros (st, h) j4 s4 ->. now apply logs_ret.
Qed.
Lemma logs_iteration mk s : rx_all G s -> logs Idle (c_receiveSingleIteration G mk) s (fun _ j' _ => j' = Idle).
Proof.
  intro Hr. apply logs_inv. intros HI _. pose proof (proj1 HI) as Hg. unfold c_receiveSingleIteration.
  eapply lb; [apply logs_with; [apply logs_visitc|apply (getc_steps G n m HM HV); exact Hg]|]. cbv beta. intros c j1 s1 ((-> & _) & t1 & O1 & Hg1 & Ec).
  eapply lb; [apply logs_with; [apply logs_recv|apply (recv_took G n m HM HV s Hr Hg c s1 t1); auto]|]. cbv beta. intros r j2 s2 (-> & t2 & Hg2 & bs & K).
  eapply lb; [apply logs_with; [apply logs_head|exact (head_steps G n m HM HV r s s2 (t1 ++ t2) bs Hr Hg2 K)]|]. cbv beta. intros (((hs, type), rem), hdr) j3 s3 (-> & t3 & Hd). unfold headed in Hd.
  set (T := (t1 ++ t2) ++ t3) in *.
  eapply (lb _ _ _ _ _ _ _ (fun st j' s' => j' = Idle /\ exists t, good s' /\ others s3 s' t /\ (r < 0 -> st = hs) /\ (st = Success -> hs = Success))).
  { assert (Hg3 : good s3). { destruct Hd as [(_ & _ & R & _)|(_ & b & C & _)]; [eapply (reads_good _ n m); [exact R|exact Hg]|eapply (came_good _ n m); eauto]. }
    destruct ((r =? 0) && mk) eqn:E.
    - eapply lb; [apply logs_with; [apply logs_keepAlive|apply (keepAlive_idle G n m HM HV); exact Hg3]|]. cbv beta. intros k j4 s4 (-> & t4 & O4 & Hg4 & _). apply logs_ret.
      split; auto. exists t4. split; auto. split; auto. split; [apply andb_true_iff in E; lia|]. destruct k; cbn [status_beq]; auto; discriminate.
    - apply logs_ret. split; auto. exists []. split; auto. split; [apply others_refl|auto]. }
  cbv beta. intros st j4 s4 (-> & t4 & Hg4 & O4 & Hn & Hst).
  eapply lb; [apply logs_with; [apply logs_visitc|apply (getc_steps G n m HM HV); exact Hg4]|]. cbv beta. intros c' j5 s5 ((-> & _) & t5 & O5 & Hg5 & ->).
  pose proof (others_trans _ _ _ _ _ O4 O5) as O45.
  eapply (lb _ _ _ _ _ _ _ (fun q j' s' => j' = Idle /\ (q = Success -> s' = s5 /\ st = Success /\ rem + hdr <= x_index (s_ctx s5)))).
  { destruct (status_beq st Success) eqn:Es; cbn [negb].
    - assert (st = Success) as -> by (now apply status_beq_eq). destruct (zlen (x_buf (s_ctx s5)) <? rem + hdr) eqn:Eb.
      + destruct Hd as [(N & E & R & D)|(N & b & C & Hh)]; [specialize (Hst eq_refl); congruence|].
        pose proof (came_others _ _ _ _ _ _ _ C O45) as C5. pose proof (came_rx _ _ _ _ _ C5 Hr) as Hr5.
        pose proof (others_header _ _ _ _ _ _ _ O45 (Hh (Hst eq_refl))) as Hh5.
        destruct (got_header_range _ _ _ _ _ _ (proj1 Hr5) Hh5 eq_refl) as (G1 & G2 & G3 & G4 & _).
        eapply logs_weaken; [apply logs_with; [apply logs_discardStored|apply (discard_steps G n m HM HV); auto; lia]|]. cbv beta.
        intros q j' s' _ _ (-> & t & Hq). split; auto. intros ->. exfalso. destruct Hq as (_ & _ & _ & _ & _ & _ & _ & _ & [Q|(Q & _)] & _); discriminate.
      + destruct (x_index (s_ctx s5) <? rem + hdr) eqn:Ei; apply logs_ret; (split; [reflexivity|]); [discriminate|]. intros _. split; auto. split; auto. lia.
    - apply logs_ret. split; auto. intros ->. discriminate. }
  cbv beta. intros q j6 s6 (-> & Hq).
  eapply (lb _ _ _ _ _ _ _ (fun _ j' _ => j' = Idle)); [|cbv beta; intros q' j7 s7 ->; now apply logs_ret].
  destruct (status_beq q Success) eqn:Eq; [|now apply logs_ret]. assert (q = Success) as -> by (now apply status_beq_eq).
  destruct (Hq eq_refl) as (-> & -> & Hl). destruct Hd as [(N & E & R & D)|(N & b & C & Hh)]; [specialize (Hst eq_refl); congruence|].
  pose proof (came_others _ _ _ _ _ _ _ C O45) as C5. pose proof (came_rx _ _ _ _ _ C5 Hr) as Hr5.
  pose proof (others_header _ _ _ _ _ _ _ O45 (Hh (Hst eq_refl))) as Hh5.
  exact (logs_handle mk type rem hdr s5 Hr5 Hh5 Hl).
Qed.
End MP3.
