(** A client that takes the packets from the bytes it reads: one pass of the receive loops. *)
From Verif Require Import Base StateModel StateSpec StateHarness StateProofs StateProofs2 SerModel WireSpec SerHarness SerProofs SerProofs2 SerProofs3 SerProofs4 SerProofs5
  CoreModel CoreHarness CoreSpec CoreProofs CoreProofs2 CoreProofs3 CoreProofs4 CoreProofs5 CoreProofs6 CoreProofs7 CoreProofs8 CoreProofs9 CoreProofs10 CoreProofs11 CoreProofs12 CoreProofs13 CoreProofs14 CoreProofs15 CoreProofs16 CoreProofs17 CoreProofs18 CoreProofs19 CoreProofs20 CoreProofs21 CoreProofs22 ConcModel ConcHarness ConcProofs ConcProofs2 ConcProofs3 ConcProofs4 ConcProofs5 ConcProofs6 ConcProofs7.

(** the packets handled or dropped are in the buffer, in the order of the bytes *)
Definition shaped (s : st) (t : list ev) : Prop :=
  (forall t1 ty body t2, t = t1 ++ EPkt ty body :: t2 ->
     items t1 = [] /\ exists h more, header h ty (zlen body) /\ pend (s_ctx s) ++ ins t1 = h ++ body ++ more) /\
  (forall t1 ty rl t2, t = t1 ++ EDrop ty rl :: t2 ->
     items t1 = [] /\ exists h more, header h ty rl /\ pend (s_ctx s) ++ ins t1 = h ++ more).
Lemma shaped_none s t : items t = [] -> shaped s t.
Proof.
  intro H. split; intros t1 ty x t2 ->; rewrite items_app in H; apply app_eq_nil in H; destruct H as (_ & H); discriminate.
Qed.
Lemma shaped_after s s1 t1 t : items t1 = [] -> pend (s_ctx s) ++ ins t1 = pend (s_ctx s1) -> shaped s1 t -> shaped s (t1 ++ t).
Proof.
  intros H E (K1 & K2). split; intros a ty x b Ea; apply split_app2 in Ea; destruct Ea as [(c & -> & _)|(c & -> & ->)];
    try (rewrite items_app in H; apply app_eq_nil in H; destruct H as (_ & H); discriminate).
  - destruct (K1 _ _ _ _ eq_refl) as (A1 & h & more & A2 & A3). rewrite items_app, H, A1, ins_app, app_assoc, E. eauto.
  - destruct (K2 _ _ _ _ eq_refl) as (A1 & h & more & A2 & A3). rewrite items_app, H, A1, ins_app, app_assoc, E. eauto.
Qed.
Lemma shaped_whole s t1 ty body t2 h more : items t1 = [] -> items t2 = [] -> header h ty (zlen body) -> pend (s_ctx s) ++ ins t1 = h ++ body ++ more ->
  shaped s (t1 ++ EPkt ty body :: t2).
Proof.
  intros H1 H2 Hh E. assert (X : items (t1 ++ EPkt ty body :: t2) = [Whole ty body]) by (rewrite items_app, H1; change (items (EPkt ty body :: t2)) with (Whole ty body :: items t2); now rewrite H2).
  split; intros a ty' x b Ea.
  - pose proof X as Y. rewrite Ea, items_app in Y. cbn [items flat_map app] in Y. fold (items b) in Y.
    destruct (items a) as [|i l] eqn:Ia; [|cbn [app] in Y; injection Y as _ Y; destruct l; discriminate]. split; auto.
    assert (a = t1 /\ ty' = ty /\ x = body) as (-> & -> & ->).
    { apply split_app2 in Ea. destruct Ea as [(c & -> & _)|(c & -> & Ea)]; [rewrite items_app in H1; apply app_eq_nil in H1; destruct H1; discriminate|].
      destruct c as [|e c]; cbn [app] in Ea; [rewrite app_nil_r; repeat split; congruence|]. exfalso. injection Ea as _ Ea. rewrite Ea, items_app in H2. apply app_eq_nil in H2. destruct H2; discriminate. }
    eauto.
  - exfalso. rewrite Ea, items_app in X. cbn [items flat_map app] in X. destruct (items a) as [|i [|j l]]; discriminate.
Qed.
Lemma shaped_dropped s t ty rl h more : items t = [Skipped ty rl] -> header h ty rl -> pend (s_ctx s) = h ++ more -> shaped s t.
Proof.
  intros X Hh E. split; intros a ty' x b Ea; rewrite Ea, items_app in X; cbn [items flat_map app] in X; destruct (items a) as [|i l] eqn:Ia; cbn [app] in X;
    try discriminate; try (injection X as _ X; destruct l; discriminate).
  assert (ty' = ty /\ x = rl) as (-> & ->) by (split; congruence). split; auto. exists h, (more ++ ins a). split; auto. now rewrite E, <- app_assoc.
Qed.

Local Notation "'let^' x ':=' m 'in' k" := (cbind m (fun x => k))
  (at level 200, x pattern, m at level 100, k at level 200).
Local Notation "m ;^ k" := (cbind m (fun _ => k)) (at level 190, right associativity).
Section BP3.
Variable G : cfg.
Variables n m : nat.
Hypothesis HM : 4294967296 <= g_M G.
Hypothesis HV : 3 <= g_maxvec G.
Notation good := (good n m).
Notation CPath := (CPath G).

Lemma others_none s s' t : others s s' t -> items t = [] /\ ins t = [] /\ pend (s_ctx s') = pend (s_ctx s).
Proof.
  intros (P & _). apply path_same_rx in P. destruct P as ((E1 & E2 & _) & P). apply no_rx_items in P. destruct P. split; auto. split; auto. unfold pend. now rewrite E1, E2.
Qed.
Lemma shaped_others s s1 t1 t : others s s1 t1 -> shaped s1 t -> shaped s (t1 ++ t).
Proof. intros O H. destruct (others_none _ _ _ O) as (A & B & C). eapply shaped_after; eauto. now rewrite B, C, app_nil_r. Qed.
Lemma handle_shaped mk type rem hdr s : rx_all G s -> good s -> got_header (s_ctx s) Success type rem hdr -> rem + hdr <= x_index (s_ctx s) ->
  steps (c_handle G mk type rem hdr) s (fun _ _ t => shaped s t).
Proof.
  intros Hr Hg Hh Hl. unfold c_handle.
  destruct (got_header_range _ _ _ _ _ _ (proj1 Hr) Hh eq_refl) as (G1 & G2 & G3 & G4 & h & rest & Ep & Hhd & El).
  pose proof Hr as ((R0 & R1 & R2 & R3 & R4) & R5).
  set (data := skipn (Z.to_nat hdr) (x_buf (s_ctx s))). set (body := firstn (Z.to_nat rem) data).
  eapply (steps_bind _ _ _ _ (fun d s' t => d = data /\ exists t0, t = t0 ++ [EPkt type body] /\ others s s' t0 /\ good s')).
  { apply (steps_visit G n m HM HV); auto. intros s1 t1 Ho Hg1. split.
    - apply safe_bind; [safe1|]. intros c ? ? ?. apply safe_bind; [safe1|]. intros; safe1.
    - intros d s2 t2 H. mgo H. destruct (path_same_rx _ _ _ (proj1 Ho)) as ((Eb & _) & _). unfold body, data. rewrite Eb. eauto 6. }
  cbv beta. intros d s1 tx (-> & t1 & -> & Ho & Hg1).
  destruct (path_same_rx _ _ _ (proj1 Ho)) as (S1 & _). pose proof (same_rx_all _ _ _ S1 Hr) as Hr1.
  assert (Ld : zlen data = zlen (x_buf (s_ctx s)) - hdr).
  { unfold data, zlen in *. rewrite skipn_length. lia. }
  assert (Hbody : bytes_ok body).
  { unfold bytes_ok in *. rewrite Forall_forall in *. intros x Hx'. apply R5.
    rewrite <- (firstn_skipn (Z.to_nat hdr) (x_buf (s_ctx s))). apply in_app_iff. right.
    rewrite <- (firstn_skipn (Z.to_nat rem) (skipn _ _)). apply in_app_iff. auto. }
  eapply steps_bind; [apply (dispatch_steps G n m HM HV); auto; try lia; apply Hhd|]. fold body. intros st s2 t2 (P2 & Hg2 & O2 & A2). cbv beta.
  destruct (path_same_rx _ _ _ P2) as (S2 & N2). pose proof (same_rx_all _ _ _ S2 Hr1) as Hr2. destruct (no_rx_items _ N2) as (I2 & _).
  assert (Ei : x_index (s_ctx s2) = x_index (s_ctx s)) by (destruct S1 as (_ & E1 & _), S2 as (_ & E2 & _); congruence).
  eapply (steps_bind _ _ _ _ (fun _ s' t => items t = [] /\ good s')).
  { apply (steps_visit G n m HM HV); auto. intros s3 t3 Ho3 Hg3. destruct (path_same_rx _ _ _ (proj1 Ho3)) as (S3 & _). pose proof (same_rx_all _ _ _ S3 Hr2) as Hr3.
    assert (x_index (s_ctx s3) = x_index (s_ctx s)) as Ei3 by (destruct S3 as (_ & E3 & _); congruence). split; [apply shift_safe; [apply Hr3|lia]|].
    intros [] s4 t4 H4. apply shift_spec in H4; [|apply Hr3|lia]. destruct H4 as (-> & ->). rewrite app_nil_r. split; [apply (others_none _ _ _ Ho3)|]. eapply good_same; [| |exact Hg3]; reflexivity. }
  cbv beta. intros _ s4 t3 (I3 & Hg4).
  eapply (steps_bind _ _ _ _ (fun _ s' t => items t = [])).
  { destruct (status_beq st Success); [|now apply steps_ret].
    eapply steps_weaken; [eapply (idle_bind n m _ _ _ (fun _ => True) (fun _ => True)); [apply (idle_visit G n m HM HV); [exact Hg4|intros; split; [safe1|apply time_others]]|]|].
    - intros now s5 _ Hg5. apply (idle_visit G n m HM HV); [exact Hg5|]. intros s6 Hg6. split; [safe1|]. intros [] s7 t7 H7. apply modc_inv in H7. destruct H7 as (-> & ->).
      split; [apply path_one, a_local; repeat split|auto].
    - cbv beta. intros a s' t (O & _). apply (others_none _ _ _ O). }
  cbv beta. intros _ s5 t5 I5. apply steps_ret. rewrite app_nil_r. rewrite <- !app_assoc. cbn [app].
  destruct (others_none _ _ _ Ho) as (J1 & J2 & J3). apply (shaped_whole s t1 type body (t2 ++ t3 ++ t5) h (skipn (Z.to_nat rem) rest)); auto.
  - rewrite !items_app, I2, I3, I5. reflexivity.
  - assert (Ed : body = firstn (Z.to_nat rem) rest).
    { assert (Er : rest = skipn (Z.to_nat hdr) (pend (s_ctx s))).
      { rewrite Ep. symmetry. apply skipn_app_exact. unfold zlen in El. lia. }
      rewrite Er. unfold body, data, pend. rewrite skipn_firstn_comm, firstn_firstn. f_equal. lia. }
    assert (Lr : rem <= zlen rest).
    { pose proof (pend_len _ _ (proj1 Hr)) as P. rewrite Ep, CoreProofs.zlen_app in P. lia. }
    rewrite Ed, SerProofs.zlen_firstn by lia. exact Hhd.
  - assert (Ed : body = firstn (Z.to_nat rem) rest).
    { assert (Er : rest = skipn (Z.to_nat hdr) (pend (s_ctx s))).
      { rewrite Ep. symmetry. apply skipn_app_exact. unfold zlen in El. lia. }
      rewrite Er. unfold body, data, pend. rewrite skipn_firstn_comm, firstn_firstn. f_equal. lia. }
    rewrite J2, app_nil_r, Ep, Ed, firstn_skipn. reflexivity.
Qed.
Lemma came_pend bs s s' t : came G bs s s' t -> items t = [] /\ pend (s_ctx s) ++ ins t = pend (s_ctx s').
Proof.
  intros (_ & (_ & _ & _ & b & F & E) & T & _). split; auto. rewrite T in F. inversion F. subst. exact E.
Qed.
Lemma iteration_shaped mk s : rx_all G s -> good s -> steps (c_receiveSingleIteration G mk) s (fun _ _ t => shaped s t).
Proof.
  intros Hr Hg. unfold c_receiveSingleIteration. eapply steps_bind; [apply (getc_steps G n m HM HV); exact Hg|]. cbv beta. intros c s1 t1 (O1 & Hg1 & Ec).
  eapply steps_bind; [apply (recv_took G n m HM HV s Hr Hg c s1 t1); auto|]. cbv beta. intros r s2 t2 (Hg2 & bs & K).
  eapply steps_bind; [exact (head_steps G n m HM HV r s s2 (t1 ++ t2) bs Hr Hg2 K)|]. cbv beta. intros (((hs, type), rem), hdr) s3 t3 Hd. unfold headed in Hd.
  set (T := (t1 ++ t2) ++ t3) in *.
  eapply (steps_bind _ _ _ _ (fun st s' t => good s' /\ others s3 s' t /\ (r < 0 -> st = hs) /\ (st = Success -> hs = Success))).
  { assert (Hg3 : good s3). { destruct Hd as [(_ & _ & R & _)|(_ & b & C & _)]; [eapply (reads_good _ n m); [exact R|exact Hg]|eapply came_good; eauto]. }
    destruct ((r =? 0) && mk) eqn:E.
    - eapply steps_bind; [apply (keepAlive_idle G n m HM HV); exact Hg3|]. cbv beta. intros k s4 t4 (O4 & Hg4 & _). apply steps_ret. rewrite app_nil_r.
      split; auto. split; auto. split; [apply andb_true_iff in E; lia|]. destruct k; cbn [status_beq]; auto; discriminate.
    - apply steps_ret. split; auto. split; [apply others_refl|auto]. }
  cbv beta. intros st s4 t4 (Hg4 & O4 & Hn & Hst). eapply steps_bind; [apply (getc_steps G n m HM HV); exact Hg4|]. cbv beta. intros c' s5 t5 (O5 & Hg5 & ->).
  pose proof (others_trans _ _ _ _ _ O4 O5) as O45.
  assert (Ex : forall q u, steps (cret (if status_beq q NoDataAvailable then Success else q)) u
     (fun b s' t => s' = u /\ t = [] /\ b = final q)). { intros q u. apply steps_ret. repeat split. }
  destruct Hd as [(N & -> & R & D)|(N & b & C & Hh)].
  { rewrite (Hn N) in *. cbn [status_beq negb]. eapply steps_bind; [apply steps_same|]. cbv beta. intros q u tu (-> & -> & ->). cbn [status_beq].
    eapply steps_bind; [apply steps_same|]. cbv beta. intros q u tu (-> & -> & ->). cbn [status_beq]. apply steps_ret.
    destruct R as (_ & _ & _ & _ & I & _). destruct (others_none _ _ _ O45) as (I45 & _).
    apply shaped_none. unfold T in I. rewrite !items_app in *. cbn [app]. rewrite ?app_nil_r in *. rewrite <- !app_assoc in I. apply app_eq_nil in I. destruct I as (-> & I). apply app_eq_nil in I. destruct I as (-> & ->). cbn [app]. exact I45. }
  pose proof (came_others G _ _ _ _ _ _ C O45) as C5. pose proof (came_rx _ _ _ _ _ C5 Hr) as Hr5.
  assert (Fin : forall t, shaped s5 t -> shaped s (t1 ++ t2 ++ t3 ++ t4 ++ t5 ++ t)).
  { intros t Hi. destruct (came_pend _ _ _ _ C5) as (A1 & A2). pose proof (shaped_after _ _ _ _ A1 A2 Hi) as J. unfold T in J. rewrite <- !app_assoc in J. exact J. }
  assert (Nil : shaped s5 []) by (now apply shaped_none).
  destruct (status_beq st Success) eqn:Es; cbn [negb].
  2: { eapply steps_bind; [apply steps_same|]. cbv beta. intros q u tu (-> & -> & ->). rewrite Es.
    eapply steps_bind; [apply steps_same|]. cbv beta. intros q u tu (-> & -> & ->). eapply steps_weaken; [apply Ex|]. cbv beta.
    intros a s' t (-> & -> & ->). cbn [app]. now apply Fin. }
  assert (st = Success) as -> by (now apply status_beq_eq). pose proof (others_header _ _ _ _ _ _ _ O45 (Hh (Hst eq_refl))) as Hh5.
  destruct (got_header_range _ _ _ _ _ _ (proj1 Hr5) Hh5 eq_refl) as (G1 & G2 & G3 & G4 & h & rest & Ep & Hhd & El).
  destruct (zlen (x_buf (s_ctx s5)) <? rem + hdr) eqn:Eb.
  { eapply steps_bind; [apply (discard_steps G n m HM HV); auto; lia|]. cbv beta. intros q u tu Hq.
    assert (Hne : status_beq q Success = false). { destruct Hq as (_ & _ & _ & _ & _ & _ & _ & _ & [-> |(-> & _)] & _); reflexivity. }
    rewrite Hne. eapply steps_bind; [apply steps_same|]. cbv beta. intros q' u' tu' (-> & -> & ->). eapply steps_weaken; [apply Ex|]. cbv beta.
    intros a s' t (-> & -> & ->). cbn [app]. rewrite app_nil_r. apply Fin. destruct Hq as (_ & _ & _ & I & _). eapply shaped_dropped; eauto. }
  destruct (x_index (s_ctx s5) <? rem + hdr) eqn:Ei.
  { eapply steps_bind; [apply steps_same|]. cbv beta. intros q u tu (-> & -> & ->). cbn [status_beq].
    eapply steps_bind; [apply steps_same|]. cbv beta. intros q u tu (-> & -> & ->). eapply steps_weaken; [apply Ex|]. cbv beta.
    intros a s' t (-> & -> & ->). cbn [app]. now apply Fin. }
  eapply steps_bind; [apply steps_same|]. cbv beta. intros q u tu (-> & -> & ->). cbn [status_beq].
  eapply steps_bind; [apply (handle_shaped mk type rem hdr s5); auto; lia|]. cbv beta. intros q u tu Hq. eapply steps_weaken; [apply Ex|]. cbv beta.
  intros a s' t (-> & -> & ->). cbn [app]. rewrite app_nil_r. now apply Fin.
Qed.
Definition loopc (c : call) : bool := match c with CProcess | CReceive => true | _ => false end.
Lemma loop_shaped c s : loopc c = true -> rx_all G s -> good s -> steps (c_run_call G c) s (fun _ _ t => shaped s t).
Proof.
  intros Hc Hr Hg. destruct c as [o|ci will tmo| |]; try discriminate; cbn [c_run_call]; [|now apply iteration_shaped].
  unfold c_processLoop. eapply (steps_bind _ _ _ _ (fun _ s1 t1 => others s s1 t1 /\ good s1)).
  - apply (steps_visit G n m HM HV); auto. intros s1 t1 O1 Hg1. split; [safe1|]. intros [] s2 t2 E. apply modc_inv in E. destruct E as (-> & ->).
    rewrite app_nil_r. pose proof (others_trans _ _ _ _ _ O1 (ctl_others s1)) as O. rewrite app_nil_r in O. split; [exact O|]. eapply good_path; [apply ctl_others|exact Hg1].
  - intros [] s1 t1 (O1 & Hg1). assert (Hr1 : rx_all G s1). { pose proof (proj1 O1) as X. apply path_same_rx in X. destruct X as (X & _). eapply same_rx_all; eauto. }
    eapply steps_weaken; [apply iteration_shaped; auto|]. cbv beta. intros a s2 t2 Hi. eapply shaped_others; eauto.
Qed.
End BP3.
