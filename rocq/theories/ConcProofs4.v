(** The client used from several threads: one pass of the receive loops. *)
From Verif Require Import Base StateModel StateSpec StateHarness StateProofs StateProofs2 SerModel WireSpec SerHarness SerProofs SerProofs2 SerProofs3 SerProofs4 SerProofs5
  CoreModel CoreHarness CoreSpec CoreProofs CoreProofs2 CoreProofs3 CoreProofs4 CoreProofs5 CoreProofs6 CoreProofs7 CoreProofs8 CoreProofs9 CoreProofs10 CoreProofs11 CoreProofs12 CoreProofs13 CoreProofs14 CoreProofs15 CoreProofs16 CoreProofs17 CoreProofs18 CoreProofs19 CoreProofs20 CoreProofs21 CoreProofs22 ConcModel ConcHarness ConcProofs ConcProofs2 ConcProofs3.

Local Notation "'let^' x ':=' m 'in' k" := (cbind m (fun x => k))
  (at level 200, x pattern, m at level 100, k at level 200).
Local Notation "m ;^ k" := (cbind m (fun _ => k)) (at level 190, right associativity).
Section CP4.
Variable G : cfg.
Variables n m : nat.
Hypothesis HM : 4294967296 <= g_M G.
Hypothesis HV : 3 <= g_maxvec G.
Notation good := (good n m).
Notation CPath := (CPath G).
Notation reads := (reads G).

(** ** Dropping a packet that does not fit *)
Definition dpost (ty rem hdr : Z) (s : st) (res : status) (s' : st) (t : list ev) : Prop :=
  CPath false s s' t /\ zlen (x_buf (s_ctx s')) = zlen (x_buf (s_ctx s)) /\ x_index (s_ctx s') = 0 /\
  items t = [Skipped ty rem] /\ e_in (s_env s) = ins t ++ e_in (s_env s') /\ calm_t t /\ incoming s' = incoming s /\ settled s' t /\
  (res = RecvFailed \/ res = NoDataAvailable /\ zlen (ins t) = rem + hdr - x_index (s_ctx s)) /\
  forall a b, ~ In (EPkt a b) t.
Lemma items_nopkt t : items t = [] -> forall a b, ~ In (EPkt a b) t.
Proof.
  intros H a b K. apply in_split in K. destruct K as (l1 & l2 & ->). rewrite items_app in H. apply app_eq_nil in H. destruct H as (_ & H). discriminate.
Qed.
Lemma emptied_rx s : rx_all G s -> rx_all G (mkSt (emptied (s_ctx s)) (s_env s)).
Proof.
  intros ((R1 & R2 & R3 & R4 & R5) & R6). unfold rx_all, rx_ok, pend, emptied. cbn [s_ctx s_env x_buf x_index set_index set_buf].
  unfold zlen in *. rewrite repeat_length. repeat split; auto; try lia. - constructor. - apply zeros_bytes.
Qed.
Lemma discard_steps ty rem hdr s : rx_all G s -> good s -> 0 <= rem -> 0 <= hdr -> rem + hdr < 4294967296 -> zlen (x_buf (s_ctx s)) < rem + hdr ->
  steps (c_discardStoredPacket G ty rem hdr) s (dpost ty rem hdr s).
Proof.
  intros Hr Hg H1 H2 H3 Hl. unfold c_discardStoredPacket.
  eapply (steps_bind _ _ _ _ (fun c s' t => c = s_ctx s' /\ exists t0, t = t0 ++ [EDrop ty rem] /\ reads [] s s' t0 /\ settled s' t0)).
  { apply (steps_visit G n m HM HV); auto. intros s1 t1 Ho Hg1. split; [apply safe_bind; [safe1|intros; safe1]|]. intros c s2 t2 H. mgo H.
    split; auto. exists t1. split; auto. split; [now apply reads_others|eapply (path_settled G); apply Ho]. }
  cbv beta. intros c s1 tx (-> & t1 & -> & R1 & D1).
  pose proof (reads_good _ n m _ _ _ _ R1 Hg) as Hg1. pose proof (reads_rx _ _ _ _ _ R1 Hr) as Hr1.
  pose proof R1 as (P1 & L1 & I1 & N1 & T1 & E1 & C1 & In1).
  eapply (steps_bind _ _ _ _ (fun _ s' t => s' = s1 /\ t = [])).
  { apply steps_atomic; [apply safe_massert; lia|]. intros [] s' t E. mgo E. auto. }
  cbv beta. intros _ s0 t0 (-> & ->).
  eapply (steps_bind _ _ _ _ (fun _ s' t => s' = s1 /\ t = [])).
  { apply steps_atomic; [safe1|]. intros e s' t E. apply gete_inv in E. tauto. }
  cbv beta. intros e s0 t0 (-> & ->). cbn [app].
  assert (Hi : 0 <= x_index (s_ctx s) <= zlen (x_buf (s_ctx s))) by apply Hr.
  assert (HL : (rem + hdr - x_index (s_ctx s1)) mod g_M G = rem + hdr - x_index (s_ctx s)) by (rewrite I1; apply Z.mod_small; lia).
  rewrite HL. set (left := rem + hdr - x_index (s_ctx s)) in *.
  pose proof (CoreProofs.zlen_nonneg (x_buf (s_ctx s1))).
  eapply steps_bind; [apply (discardStored_steps G n m HM HV); auto; lia|]. cbv beta. intros r s2 t2 (bs & R2 & D2 & K1 & K2).
  pose proof (reads_good _ n m _ _ _ _ R2 Hg1) as Hg2. pose proof (reads_rx _ _ _ _ _ R2 Hr1) as Hr2.
  eapply (steps_bind _ _ _ _ (fun _ s' t => exists s3, reads [] s2 s3 t /\ settled s3 t /\ s' = mkSt (emptied (s_ctx s3)) (s_env s3))).
  { apply (steps_visit G n m HM HV); auto. intros s3 t3 Ho Hg3. split; [safe1|]. intros [] s4 t4 H4. apply modc_inv in H4. destruct H4 as (-> & ->).
    rewrite app_nil_r. exists s3. split; [now apply reads_others|]. split; [eapply (path_settled G); apply Ho|reflexivity]. }
  cbv beta. intros _ sx t3 (s3 & R3 & D3 & ->). apply steps_ret. rewrite !app_nil_r.
  pose proof (reads_rx _ _ _ _ _ R3 Hr2) as Hr3. pose proof (emptied_rx _ Hr3) as Hr4.
  pose proof (reads_trans _ _ _ _ _ _ _ _ R2 R3) as R23. rewrite app_nil_r in R23.
  assert (A4 : CPath false s3 (mkSt (emptied (s_ctx s3)) (s_env s3)) []).
  { apply cpath_one. eapply (ca_take _ _ _ (mkSt (emptied (s_ctx s3)) (s_env s3)) _ (repeat 0 (length (x_buf (s_ctx s3)))) 0); try reflexivity; [|unfold zlen; now rewrite repeat_length|exact Hr4].
    exists (e_in (s_env s3)), (e_recvs (s_env s3)), (e_times (s_env s3)). destruct (s_env s3); reflexivity. }
  destruct R23 as (P2 & L2 & I2 & N2 & T2 & E2 & C2 & In2).
  assert (P : CPath false s (mkSt (emptied (s_ctx s3)) (s_env s3)) ((t1 ++ [EDrop ty rem]) ++ t2 ++ t3)).
  { eapply cpath_app; [eapply cpath_app; [exact P1|apply cpath_one; now apply ca_note]|]. rewrite <- (app_nil_r (t2 ++ t3)). eapply cpath_app; [exact P2|exact A4]. }
  split; [exact P|]. cbn [s_ctx s_env]. split; [unfold emptied, zlen in *; cbn [set_index set_buf x_buf]; rewrite repeat_length; lia|]. split; [reflexivity|].
  assert (Ei : ins ((t1 ++ [EDrop ty rem]) ++ t2 ++ t3) = bs) by (rewrite !ins_app, N1, <- ins_app, N2; reflexivity).
  split; [rewrite !items_app, T1, <- items_app, T2; reflexivity|]. rewrite Ei. split; [rewrite E1; exact E2|].
  split; [apply calm_app; split; [apply calm_app; split; auto; intros x [<-|[]]; reflexivity|exact C2]|]. split; [unfold incoming in *; cbn [s_ctx]; change (x_recs (emptied (s_ctx s3))) with (x_recs (s_ctx s3)); congruence|].
  split.
  { eapply (settled_trans G); [|eapply cpath_app; [apply R2|rewrite <- (app_nil_r t3); eapply cpath_app; [apply R3|exact A4]]|].
    - intro K. apply D1. rewrite errs_app in K. cbn in K. now rewrite orb_false_r in K.
    - eapply (settled_trans G); [exact D2|rewrite <- (app_nil_r t3); eapply cpath_app; [apply R3|exact A4]|exact D3]. }
  split.
  - destruct (r =? left) eqn:Er; [right|now left]. split; auto. assert (r = left) by lia. destruct (K2 H0); lia.
  - intros a b K. rewrite !in_app_iff in K. destruct K as [[K|[K|[]]]|K]; [now apply (items_nopkt _ T1) in K|discriminate|].
    apply in_app_iff in K. now apply (items_nopkt _ T2) in K.
Qed.

(** ** Steps that only let others in *)
Lemma others_refl s : others s s [].
Proof. split; [constructor|auto]. Qed.
Lemma others_trans s1 s2 s3 t1 t2 : others s1 s2 t1 -> others s2 s3 t2 -> others s1 s3 (t1 ++ t2).
Proof. intros (A1 & A2 & A3) (B1 & B2 & B3). split; [eapply path_app; eauto|]. split; [congruence|]. now rewrite forallb_app, A3. Qed.
Definition idle {A} (f : Mc A) (s : st) (R : A -> Prop) : Prop := steps f s (fun a s' t => others s s' t /\ good s' /\ R a).
Lemma idle_bind {A B} (f : Mc A) (k : A -> Mc B) s R1 R : idle f s R1 -> (forall a s1, R1 a -> good s1 -> idle (k a) s1 R) -> idle (cbind f k) s R.
Proof.
  intros H K. eapply steps_bind; [exact H|]. cbv beta. intros a s1 t1 (H1 & H2 & H3). eapply steps_weaken; [apply (K a s1 H3 H2)|].
  cbv beta. intros b s2 t2 (K1 & K2 & K3). split; [eapply others_trans; eauto|auto].
Qed.
Lemma idle_ret {A} (a : A) s (R : A -> Prop) : good s -> R a -> idle (cret a) s R.
Proof. intros. apply steps_ret. split; [apply others_refl|auto]. Qed.
Lemma idle_visit {A} (f : Mo A) s : good s -> (forall s1, good s1 -> safe f s1 /\ forall a s2 t2, f s1 = Ret a s2 t2 -> others s1 s2 t2) -> idle (visit G f) s (fun _ => True).
Proof.
  intros Hg H. apply (steps_visit G n m HM HV); auto. intros s1 t1 Ho H1. destruct (H s1 H1) as (K1 & K2). split; auto. intros a s2 t2 E. apply K2 in E.
  split; [eapply others_trans; eauto|]. split; auto. eapply good_path; [apply E|auto].
Qed.
Lemma idle_locked {A} (f : Mo A) s : good s -> (forall s1, good s1 -> safe f s1 /\ forall a s2 t2, f s1 = Ret a s2 t2 -> others s1 s2 t2) -> idle (locked G (atomic f)) s (fun _ => True).
Proof.
  intros Hg H. apply (steps_locked G n m HM HV); auto. intros s1 t1 Ho H1. destruct (H s1 H1) as (K1 & K2). split; auto. intros a s2 t2 E. apply K2 in E.
  split; [eapply others_trans; eauto|]. split; auto. eapply good_path; [apply E|auto].
Qed.
Lemma time_others s1 a s2 t2 : getTime s1 = Ret a s2 t2 -> others s1 s2 t2.
Proof. intro H. apply getTime_inv in H. destruct H as (x & r & E & -> & -> & ->). split; [apply path_one, a_local; repeat split|auto]. Qed.
Lemma idle_op o s : good s -> op_sound o -> is_disc o = false -> idle (c_op G o) s (fun _ => True).
Proof.
  intros Hg H1 H2. apply idle_locked; auto. intros s1 Hg1. split; [eapply run_op_safe; eauto; apply Hg1|]. intros a s2 t2 E.
  split; [eapply run_op_path; eauto; congruence|]. now apply run_op_frame in E.
Qed.
Lemma keepAlive_idle s : good s -> idle (c_handleKeepAlive G) s (fun _ => True).
Proof.
  intro Hg. unfold c_handleKeepAlive.
  eapply idle_bind; [apply idle_visit; auto; intros; split; [safe1|apply time_others]|]. intros now s1 _ H1.
  assert (Rd : forall B (f : context -> B) s, good s -> safe (let* c := getc in ret (f c)) s /\ forall a s2 t2, (let* c := getc in ret (f c)) s = Ret a s2 t2 -> others s s2 t2).
  { intros B f s0 _. split; [apply safe_bind; [safe1|intros; safe1]|]. intros a s2 t2 H. mgo H. apply others_refl. }
  eapply idle_bind; [apply idle_visit; auto|]. intros keep s2 _ H2.
  eapply idle_bind; [apply idle_visit; auto|]. intros waiting s3 _ H3. destruct waiting.
  - eapply idle_bind; [apply idle_visit; auto|]. intros pt s4 _ H4. now apply idle_ret.
  - eapply idle_bind; [apply idle_locked; auto|]. intros lt s4 _ H4. destruct (_ && _); [apply idle_op; auto; exact I|].
    eapply idle_bind; [apply idle_visit; auto|]. intros lr s5 _ H5. destruct (_ && _); [apply idle_op; auto; exact I|now apply idle_ret].
Qed.

(** ** Handling a packet *)
(** what one pass of a loop did *)
Definition ipost (s : st) (res : status) (s' : st) (t : list ev) : Prop :=
  CPath false s s' t /\ (res <> RecvFailed -> framed G s s' t) /\ (forall id, once id s s' t) /\ settled s' t /\
  (res = Success -> forall ty body, In (EPkt ty body) t -> answered ty body t).
Lemma answered_more ty body a t b : answered ty body t -> answered ty body (a ++ t ++ b).
Proof.
  intros H kind id Ha. destruct (H kind id Ha) as (x & y & E). exists (outs a ++ x), (y ++ outs b). rewrite !outs_app, E, <- !app_assoc. reflexivity.
Qed.
Lemma op_nopkt t : forallb op_ev t = true -> forall a b, ~ In (EPkt a b) t.
Proof. rewrite forallb_forall. intros H a b K. specialize (H _ K). discriminate. Qed.
Lemma path_nopkt s s' t : Path false s s' t -> forall a b, ~ In (EPkt a b) t.
Proof. intros P a b. apply path_same_rx in P. destruct P as (_ & N). apply no_rx_items in N. now apply items_nopkt. Qed.
Lemma others_calm s s' t : others s s' t -> calm_t t. Proof. intros (_ & _ & F). now apply op_calm. Qed.
Lemma others_in s s' t : others s s' t -> incoming s' = incoming s. Proof. intros (_ & E & _). unfold incoming. now rewrite E. Qed.
Lemma once_after id s s1 s' t u : calm_t u -> incoming s' = incoming s1 -> once id s s1 t -> once id s s' (t ++ u).
Proof.
  intros Cu E (A & B). split.
  - intro K. destruct (A K) as (A1 & A2). split.
    + intros e q He. apply in_app_iff in He. destruct He as [He|He]; [auto|rewrite (Cu e He); discriminate].
    + rewrite E. destruct A2 as [A2|(A2 & a & b & A3)]; [now left|]. right. split; [apply in_or_app; now left|]. exists a, (b ++ outs u).
      rewrite outs_app, A3, <- !app_assoc. reflexivity.
  - intros t1 e t2 Et He. apply split_app2 in Et. destruct Et as [(c & -> & ->)|(c & -> & Eu)].
    + destruct (B _ _ _ eq_refl He) as (B1 & B2 & B3). split; auto. split; [apply calm_app; auto|]. now rewrite E.
    + exfalso. subst u. rewrite (Cu e) in He; [discriminate|]. apply in_or_app. right. now left.
Qed.
(** what precedes and follows the handling does not matter *)
Lemma ipost_around s0 s s' s1 res t0 t t1 : others s0 s t0 -> rx_all G s -> ipost s res s' t -> others s' s1 t1 -> ipost s0 res s1 (t0 ++ t ++ t1).
Proof.
  intros O0 Hr (P & F & O & D & A) O1.
  assert (Hr' : rx_all G s') by (eapply cpath_rx; eauto).
  split; [eapply cpath_app; [apply cpath_path, O0|]; eapply cpath_app; [exact P|apply cpath_path, O1]|]. split.
  { intro Hs. eapply framed_trans; [|eapply framed_trans; [exact (F Hs)|apply framed_path; [apply Hr'|apply O1]]].
    apply framed_path; [|apply O0]. destruct O0 as (P0 & _). apply path_same_rx in P0. destruct P0 as ((E1 & E2 & E3 & E4) & _).
    eapply (same_rx_ok G s s0); [repeat split; congruence|apply Hr]. }
  split. { intro id. eapply once_prefix; [eapply others_calm; eauto|eapply others_in; eauto|]. eapply once_after; [eapply others_calm; eauto|eapply others_in; eauto|auto]. }
  split. { eapply (settled_trans G); [eapply (path_settled G); apply O0|eapply cpath_app; [exact P|apply cpath_path, O1]|].
           eapply (settled_trans G); [exact D|apply cpath_path, O1|eapply (path_settled G); apply O1]. }
  intros Hs ty body Hi. rewrite !in_app_iff in Hi. destruct Hi as [Hi|[Hi|Hi]]; [now apply (path_nopkt _ _ _ (proj1 O0)) in Hi| |now apply (path_nopkt _ _ _ (proj1 O1)) in Hi].
  apply answered_more. auto.
Qed.
Definition c_handle (mk : bool) (type rem hdr : Z) : Mc status :=
  let^ data := visit G (
    let* c := getc in
    let data := skipn (Z.to_nat hdr) (x_buf c) in
    emit (EPkt type (firstn (Z.to_nat rem) data)) ;;
    ret data) in
  let^ st := c_dispatch G type rem data mk in
  visit G (shift_buffer G (rem + hdr)) ;^
  (if status_beq st Success
   then let^ now := visit G getTime in visit G (modc (fun c => set_lastRx c now)) else cret tt) ;^
  cret st.
Lemma handle_steps mk type rem hdr s : rx_all G s -> good s -> got_header (s_ctx s) Success type rem hdr -> rem + hdr <= x_index (s_ctx s) ->
  steps (c_handle mk type rem hdr) s (fun st => ipost s (final st)).
Proof.
  intros Hr Hg Hh Hl. unfold c_handle.
  destruct (got_header_range _ _ _ _ _ _ (proj1 Hr) Hh eq_refl) as (G1 & G2 & G3 & G4 & h & rest & Ep & Hhd & El).
  pose proof Hr as ((R0 & R1 & R2 & R3 & R4) & R5).
  set (data := skipn (Z.to_nat hdr) (x_buf (s_ctx s))). set (body := firstn (Z.to_nat rem) data).
  eapply (steps_bind _ _ _ _ (fun d s' t => d = data /\ exists t0, t = t0 ++ [EPkt type body] /\ others s s' t0 /\ good s')).
  { apply (steps_visit G n m HM HV); auto. intros s1 t1 Ho Hg1. split.
    - apply safe_bind; [safe1|]. intros c ? ? ?. apply safe_bind; [safe1|]. intros; safe1.
    - intros d s2 t2 H. mgo H. destruct (path_same_rx _ _ _ (proj1 Ho)) as ((Eb & _) & _). unfold body, data. rewrite Eb. eauto 6. }
  cbv beta. intros d s1 tx (-> & t1 & -> & Ho & Hg1).
  destruct (path_same_rx _ _ _ (proj1 Ho)) as (S1 & _). pose proof (same_rx_all _ _ _ S1 Hr) as Hr1.
  assert (Ld : zlen data = zlen (x_buf (s_ctx s)) - hdr).
  { unfold data, zlen in *. rewrite skipn_length. lia. }
  assert (Hbody : bytes_ok body).
  { unfold bytes_ok in *. rewrite Forall_forall in *. intros x Hx'. apply R5.
    rewrite <- (firstn_skipn (Z.to_nat hdr) (x_buf (s_ctx s))). apply in_app_iff. right.
    rewrite <- (firstn_skipn (Z.to_nat rem) (skipn _ _)). apply in_app_iff. auto. }
  eapply steps_bind; [apply (dispatch_steps G n m HM HV); auto; try lia; apply Hhd|]. fold body. intros st s2 t2 (P2 & Hg2 & O2 & A2). cbv beta.
  destruct (path_same_rx _ _ _ P2) as (S2 & N2). pose proof (same_rx_all _ _ _ S2 Hr1) as Hr2.
  assert (Ei : x_index (s_ctx s2) = x_index (s_ctx s)) by (destruct S1 as (_ & E1 & _), S2 as (_ & E2 & _); congruence).
  eapply (steps_bind _ _ _ _ (fun _ s' t => exists s3, others s2 s3 t /\ good s3 /\ s' = mkSt (shifted (s_ctx s3) (rem + hdr)) (s_env s3))).
  { apply (steps_visit G n m HM HV); auto. intros s3 t3 Ho3 Hg3. destruct (path_same_rx _ _ _ (proj1 Ho3)) as (S3 & _). pose proof (same_rx_all _ _ _ S3 Hr2) as Hr3.
    assert (x_index (s_ctx s3) = x_index (s_ctx s)) as Ei3 by (destruct S3 as (_ & E3 & _); congruence). split; [apply shift_safe; [apply Hr3|lia]|].
    intros [] s4 t4 H4. apply shift_spec in H4; [|apply Hr3|lia]. destruct H4 as (-> & ->). rewrite app_nil_r. exists s3. auto. }
  cbv beta. intros _ sx t3 (s3 & Ho3 & Hg3 & ->). destruct (path_same_rx _ _ _ (proj1 Ho3)) as (S3 & N3). pose proof (same_rx_all _ _ _ S3 Hr2) as Hr3.
  assert (Ei3 : x_index (s_ctx s3) = x_index (s_ctx s)) by (destruct S3 as (_ & E3 & _); congruence).
  set (s4 := mkSt (shifted (s_ctx s3) (rem + hdr)) (s_env s3)) in *.
  assert (Hg4 : good s4) by (eapply good_same; [| |exact Hg3]; reflexivity).
  destruct (shifted_pend G (rem + hdr) s3 (s_env s3) (proj1 Hr3) ltac:(lia) eq_refl) as (Q1 & Q2 & Q3).
  assert (Hr4 : rx_all G s4).
  { split; [exact Q1|]. unfold s4, shifted. cbn [s_ctx set_buf set_index x_buf]. apply store_at_bytes; [apply Hr3|]. apply sub_bytes. apply Hr3. }
  assert (O1 : others s s1 t1) by exact Ho.
  eapply (steps_bind _ _ _ _ (fun _ s' t => others s4 s' t)).
  { destruct (status_beq st Success); [|apply steps_ret, others_refl].
    eapply steps_weaken; [eapply (idle_bind _ _ _ (fun _ => True) (fun _ => True)); [apply idle_visit; [exact Hg4|intros; split; [safe1|apply time_others]]|]|cbv beta; tauto].
    intros now s5 _ Hg5. apply idle_visit; [exact Hg5|]. intros s6 Hg6. split; [safe1|]. intros [] s7 t7 H7. apply modc_inv in H7. destruct H7 as (-> & ->).
    split; [apply path_one, a_local; repeat split|auto]. }
  cbv beta. intros _ s5 t5 O5. apply steps_ret. rewrite app_nil_r.
  set (T := EPkt type body :: t2 ++ t3).
  replace ((t1 ++ [EPkt type body]) ++ t2 ++ t3 ++ t5) with (t1 ++ T ++ t5) by (unfold T; rewrite <- !app_assoc; cbn [app]; now rewrite <- !app_assoc).
  apply (ipost_around s s1 s4 s5); auto.
  assert (A4 : CPath false s3 s4 []).
  { apply cpath_one. eapply (ca_take _ _ _ _ _ (x_buf (shifted (s_ctx s3) (rem + hdr))) (x_index (shifted (s_ctx s3) (rem + hdr)))); try reflexivity; auto.
    exists (e_in (s_env s3)), (e_recvs (s_env s3)), (e_times (s_env s3)). unfold s4. cbn [s_env]. destruct (s_env s3); reflexivity. }
  assert (P13 : Path false s1 s3 (t2 ++ t3)) by (eapply path_app; [exact P2|apply Ho3]).
  assert (P14 : CPath false s1 s4 T).
  { unfold T. change (EPkt type body :: t2 ++ t3) with ([EPkt type body] ++ t2 ++ t3). eapply cpath_app; [apply cpath_one; now apply ca_note|].
    rewrite <- (app_nil_r (t2 ++ t3)). eapply cpath_app; [apply cpath_path, P13|exact A4]. }
  split; [exact P14|]. split; [intros _|split; [|split]].
  - (* framing *)
    destruct (no_rx_items _ (proj2 (path_same_rx _ _ _ P13))) as (E1 & E2). destruct (path_same_rx _ _ _ P13) as ((F1 & F2 & F3 & _) & _).
    destruct S1 as (V1 & V2 & V3 & _).
    unfold framed, T. split; [unfold s4; cbn [s_ctx]; rewrite Q3, F1; reflexivity|]. split; [apply Hr4|].
    change (ins (EPkt type body :: t2 ++ t3)) with (ins (t2 ++ t3)). rewrite E2.
    split; [unfold s4; cbn [s_env app]; congruence|].
    change (items (EPkt type body :: t2 ++ t3)) with (Whole type body :: items (t2 ++ t3)). rewrite E1.
    unfold s4. cbn [s_ctx]. rewrite Q2.
    assert (Epd : pend (s_ctx s3) = pend (s_ctx s)) by (unfold pend; rewrite F1, F2, V1, V2; reflexivity).
    assert (Epd1 : pend (s_ctx s1) = pend (s_ctx s)) by (unfold pend; rewrite V1, V2; reflexivity).
    rewrite Epd, Epd1, V1.
    assert (Ed : body = firstn (Z.to_nat rem) rest).
    { assert (Er : rest = skipn (Z.to_nat hdr) (pend (s_ctx s))).
      { rewrite Ep. symmetry. apply skipn_app_exact. unfold zlen in El. lia. }
      rewrite Er. unfold body, data, pend. rewrite skipn_firstn_comm, firstn_firstn. f_equal. lia. }
    clearbody body. subst body. set (body := firstn (Z.to_nat rem) rest) in *.
    assert (Hrest : rest = body ++ skipn (Z.to_nat rem) rest) by (symmetry; apply firstn_skipn).
    assert (Lr : rem <= zlen rest).
    { pose proof (pend_len _ _ (proj1 Hr)) as P. rewrite Ep, CoreProofs.zlen_app in P. lia. }
    assert (Lb : zlen body = rem) by (apply SerProofs.zlen_firstn; lia).
    exists (h ++ body ++ []). split.
    + constructor; [rewrite Lb; exact Hhd|lia|constructor].
    + rewrite Ep, !app_nil_r. rewrite <- app_assoc. f_equal.
      replace (Z.to_nat (rem + hdr)) with (length h + Z.to_nat rem)%nat by (unfold zlen in El; lia).
      rewrite skipn_app. rewrite (skipn_all2 h) by lia. cbn [app].
      replace (length h + Z.to_nat rem - length h)%nat with (Z.to_nat rem) by lia. exact Hrest.
  - intro id. unfold T. change (EPkt type body :: t2 ++ t3) with ((EPkt type body :: t2) ++ t3).
    eapply (once_after id s1 s2 s4); [eapply others_calm; eauto| |apply O2]. rewrite <- (others_in _ _ _ Ho3). reflexivity.
  - pose proof (path_settled G _ _ _ P13) as D. unfold settled, T in *. cbn [errs existsb is_err orb]. exact D.
  - intros Hs ty b [K|K].
    + assert (ty = type /\ b = body) as (-> & ->) by (split; congruence). unfold T. change (EPkt type body :: t2 ++ t3) with ([EPkt type body] ++ t2 ++ t3). apply answered_more. auto.
    + exfalso. now apply (path_nopkt _ _ _ P13) in K.
Qed.

(** ** The pass *)
Definition took (bs : list Z) (s s' : st) (t : list ev) : Prop :=
  reads bs s s' t /\ settled s' t /\ x_buf (s_ctx s') = store_at (x_buf (s_ctx s)) (x_index (s_ctx s)) bs /\
  x_index (s_ctx s) + zlen bs <= zlen (x_buf (s_ctx s)).
Definition came (bs : list Z) (s s' : st) (t : list ev) : Prop :=
  CPath false s s' t /\ framed G s s' t /\ items t = [] /\ calm_t t /\ incoming s' = incoming s /\ settled s' t /\
  pend (s_ctx s') = pend (s_ctx s) ++ bs.
Lemma took_others bs s s1 s2 t1 t2 : took bs s s1 t1 -> others s1 s2 t2 -> took bs s s2 (t1 ++ t2).
Proof.
  intros (R & D & E & L) O. split; [rewrite <- (app_nil_r bs); eapply reads_trans; [exact R|now apply reads_others]|].
  split; [eapply (settled_trans G); [exact D|apply cpath_path, O|eapply (path_settled G); apply O]|]. split; auto.
  destruct (path_same_rx _ _ _ (proj1 O)) as ((-> & _) & _). exact E.
Qed.
Lemma came_others bs s s1 s2 t1 t2 : came bs s s1 t1 -> others s1 s2 t2 -> came bs s s2 (t1 ++ t2).
Proof.
  intros (P & F & T & C & I & D & E) O. destruct (path_same_rx _ _ _ (proj1 O)) as ((E1 & E2 & _) & N). apply no_rx_items in N.
  split; [eapply cpath_app; [exact P|apply cpath_path, O]|].
  split; [eapply framed_trans; [exact F|apply framed_path; [apply F|apply O]]|]. split; [rewrite items_app, T; apply N|].
  split; [apply calm_app; split; [exact C|eapply others_calm; eauto]|]. split; [rewrite (others_in _ _ _ O); exact I|].
  split; [eapply (settled_trans G); [exact D|apply cpath_path, O|eapply (path_settled G); apply O]|]. unfold pend in *. now rewrite E1, E2.
Qed.
(** with the index advanced *)
Lemma took_came bs s s1 t1 : rx_all G s -> took bs s s1 t1 ->
  came bs s (mkSt (set_index (s_ctx s1) ((x_index (s_ctx s1) + zlen bs) mod g_M G)) (s_env s1)) t1 /\
  rx_all G (mkSt (set_index (s_ctx s1) ((x_index (s_ctx s1) + zlen bs) mod g_M G)) (s_env s1)).
Proof.
  intros Hr ((P & L & I & N & T & E & C & In) & D & Eb & Hl). pose proof (cpath_rx _ _ _ _ _ P Hr) as Hr1.
  pose proof Hr as ((R0 & R1 & R2 & R3 & R4) & R5). pose proof (CoreProofs.zlen_nonneg bs).
  rewrite I. rewrite Z.mod_small by lia. set (s2 := mkSt (set_index (s_ctx s1) (x_index (s_ctx s) + zlen bs)) (s_env s1)).
  assert (Ep : pend (s_ctx s2) = pend (s_ctx s) ++ bs).
  { unfold pend, s2. cbn [s_ctx set_index x_index x_buf]. rewrite Eb. apply store_at_prefix; lia. }
  assert (Hr2 : rx_all G s2).
  { destruct Hr1 as ((V0 & V1 & V2 & V3 & V4) & V5). split; [|exact V5]. unfold rx_ok. rewrite Ep. unfold s2. cbn [s_ctx s_env set_index x_index x_buf].
    repeat split; auto; try lia. apply Forall_app. split; auto. rewrite E in R4. apply Forall_app in R4. apply R4. }
  split; [|exact Hr2]. split; [|split; [|split; [exact T|split; [exact C|split; [|split; [exact D|exact Ep]]]]]].
  - rewrite <- (app_nil_r t1). eapply cpath_app; [exact P|]. apply cpath_one.
    eapply (ca_take _ _ _ _ _ (x_buf (s_ctx s1)) (x_index (s_ctx s) + zlen bs)); [reflexivity| |reflexivity|exact Hr2|].
    + exists (e_in (s_env s1)), (e_recvs (s_env s1)), (e_times (s_env s1)). unfold s2. cbn [s_env]. destruct (s_env s1); reflexivity.
    + unfold s2. cbn [s_ctx]. now rewrite set_buf_id.
  - split; [exact L|]. split; [apply Hr2|]. rewrite N. split; [exact E|]. exists []. split; [rewrite T; constructor|]. cbn [app]. now rewrite Ep.
  - unfold incoming in *. exact In.
Qed.
Lemma took_nothing s s1 t1 : rx_all G s -> took [] s s1 t1 -> came [] s s1 t1.
Proof.
  intros Hr H. pose proof H as ((P & L & I & N & T & E & C & In) & D & Eb & Hl). pose proof (cpath_rx _ _ _ _ _ P Hr) as Hr1.
  assert (Ep : pend (s_ctx s1) = pend (s_ctx s)).
  { unfold pend. rewrite I, Eb. rewrite store_at_nil; auto. apply Hr. }
  split; [exact P|]. split; [|split; [exact T|split; [exact C|split; [exact In|split; [exact D|now rewrite app_nil_r]]]]].
  split; [exact L|]. split; [apply Hr1|]. rewrite N. split; [exact E|]. exists []. split; [rewrite T; constructor|]. cbn [app]. now rewrite Ep, app_nil_r.
Qed.
Lemma came_rx bs s s' t : came bs s s' t -> rx_all G s -> rx_all G s'. Proof. intros (P & _). eapply cpath_rx; eauto. Qed.
Lemma came_good bs s s' t : came bs s s' t -> good s -> good s'. Proof. intros (P & _). eapply cpath_good; eauto. Qed.
Lemma came_ipost bs s s1 s' t1 t res : came bs s s1 t1 -> ipost s1 res s' t -> ipost s res s' (t1 ++ t).
Proof.
  intros (P & F & T & C & I & D & E) (P2 & F2 & O2 & D2 & A2). split; [eapply cpath_app; eauto|]. split; [intro Hs; eapply framed_trans; [exact F|auto]|].
  split; [intro id; eapply once_prefix; eauto|]. split; [eapply (settled_trans G); eauto|]. intros Hs ty body Hi.
  apply in_app_iff in Hi. destruct Hi as [Hi|Hi]; [now apply (items_nopkt _ T) in Hi|]. rewrite <- (app_nil_r t). apply answered_more. auto.
Qed.
Lemma ipost_refl s res : rx_all G s -> ipost s res s [].
Proof.
  intros Hr. split; [constructor|]. split; [intros _; apply framed_path; [apply Hr|constructor]|]. split; [intro; apply once_calm; [apply calm_nil|auto]|].
  split; [now apply settled_none|]. intros _ ty body [].
Qed.
Lemma dropped_ipost ty rem hdr s res s' t : rx_all G s -> got_header (s_ctx s) Success ty rem hdr -> zlen (x_buf (s_ctx s)) < rem + hdr ->
  dpost ty rem hdr s res s' t -> ipost s (final res) s' t.
Proof.
  intros Hr Hh Hl (P & L & I & T & E & C & In & D & K & N).
  destruct (got_header_range _ _ _ _ _ _ (proj1 Hr) Hh eq_refl) as (G1 & G2 & G3 & G4 & h & rest & Ep & Hhd & El).
  split; [exact P|]. split; [|split; [intro; apply once_calm; auto; left; now rewrite In|split; [exact D|intros _ a b Hi; now apply N in Hi]]].
  destruct K as [-> |(-> & K)]; [contradiction|]. intros _. pose proof (cpath_rx _ _ _ _ _ P Hr) as Hr'.
  split; [exact L|]. split; [apply Hr'|]. split; [exact E|]. exists (h ++ (rest ++ ins t) ++ []).
  assert (Hz : rem = zlen (rest ++ ins t)).
  { pose proof (pend_len _ _ (proj1 Hr)) as Q. rewrite Ep, CoreProofs.zlen_app in Q. rewrite CoreProofs.zlen_app. lia. }
  split.
  - rewrite T. rewrite Hz. constructor; [rewrite <- Hz; exact Hhd|rewrite <- Hz; lia|constructor].
  - assert (pend (s_ctx s') = []) as -> by (unfold pend; rewrite I; reflexivity). rewrite !app_nil_r, Ep, <- app_assoc. reflexivity.
Qed.
Lemma getc_steps s : good s -> steps (visit G getc) s (fun c s' t => others s s' t /\ good s' /\ c = s_ctx s').
Proof.
  intro Hg. apply (steps_visit G n m HM HV); auto. intros s1 t1 Ho Hg1. split; [safe1|]. intros c s2 t2 H. mgo H. rewrite app_nil_r. auto.
Qed.
Lemma others_header s s' t hs ty rem hdr : others s s' t -> got_header (s_ctx s) hs ty rem hdr -> got_header (s_ctx s') hs ty rem hdr.
Proof. intros O. destruct (path_same_rx _ _ _ (proj1 O)) as ((E1 & E2 & _) & _). unfold got_header, pend. now rewrite E1, E2. Qed.
Lemma down_ipost s s' t : reads [] s s' t -> x_status (s_ctx s') <> Connected -> ipost s RecvFailed s' t.
Proof.
  intros (P & L & I & N & T & E & C & In) D. split; [exact P|]. split; [contradiction|]. split; [intro; apply once_calm; auto; left; now rewrite In|].
  split; [intros _; exact D|discriminate].
Qed.
Definition c_head (r : Z) : Mc (status * Z * Z * Z) :=
  if r <? 0 then c_broke G ;^ cret (RecvFailed, 0, 0, 0)
  else
    let^ c := visit G getc in
    if (r =? 0) && (x_index c =? 0) then cret (NoDataAvailable, 0, 0, 0)
    else
      visit G (modc (fun c => set_index c ((x_index c + r) mod g_M G))) ;^
      let^ c := visit G getc in
      let^ (st, h) := atomic (lift (processIncomingPacketTypeAndLength (x_buf c) (x_index c))) in
      cret (match h with Some (t, rl, hl) => (st, t, rl, hl) | None => (st, 0, 0, 0) end).
Definition headed (r : Z) (s : st) (q : status * Z * Z * Z) (s' : st) (t : list ev) : Prop :=
  let '(hs, type, rem, hdr) := q in
  r < 0 /\ hs = RecvFailed /\ reads [] s s' t /\ x_status (s_ctx s') <> Connected \/
  0 <= r /\ exists bs, came bs s s' t /\ (hs = Success -> got_header (s_ctx s') Success type rem hdr).
Lemma head_steps r s s1 t1 bs : rx_all G s -> good s1 ->
  (r < 0 /\ reads [] s s1 t1 \/ r = zlen bs /\ took bs s s1 t1) -> steps (c_head r) s1 (fun q s' t => headed r s q s' (t1 ++ t)).
Proof.
  intros Hr Hg K. unfold c_head. pose proof (CoreProofs.zlen_nonneg bs). destruct K as [(K1 & K2)|(K1 & K2)].
  { replace (r <? 0) with true by lia. eapply steps_bind; [apply (broke_steps G n m HM HV); exact Hg|]. cbv beta. intros _ s2 t2 (R & D).
    apply steps_ret. rewrite app_nil_r. left. split; auto. split; auto. split; auto. change (@nil Z) with (@nil Z ++ []). eapply reads_trans; eauto. }
  replace (r <? 0) with false by lia. eapply steps_bind; [apply getc_steps; exact Hg|]. cbv beta. intros c s2 t2 (O2 & Hg2 & ->).
  pose proof (took_others _ _ _ _ _ _ K2 O2) as K3. destruct ((r =? 0) && (x_index (s_ctx s2) =? 0)) eqn:E0.
  { apply steps_ret. rewrite app_nil_r. right. split; [lia|]. apply andb_true_iff in E0. destruct bs as [|x y]; [|unfold zlen in K1; cbn [length] in K1; lia].
    exists []. split; [now apply took_nothing|discriminate]. }
  eapply (steps_bind _ _ _ _ (fun _ s' t => good s' /\ rx_all G s' /\ came bs s s' (t1 ++ t2 ++ t))).
  { apply (steps_visit G n m HM HV); auto. intros s3 t3 O3 Hg3. split; [safe1|]. intros [] s4 t4 H4. apply modc_inv in H4. destruct H4 as (-> & ->).
    rewrite app_nil_r. pose proof (took_others _ _ _ _ _ _ K3 O3) as K4. rewrite K1. rewrite app_assoc.
    destruct (took_came _ _ _ _ Hr K4) as (C & Rx). split; [eapply good_same; [..|exact Hg3]; reflexivity|]. split; auto. }
  cbv beta. intros _ s4 t4 (Hg4 & Hr4 & C4). eapply steps_bind; [apply getc_steps; exact Hg4|]. cbv beta. intros c s5 t5 (O5 & Hg5 & ->).
  pose proof (came_others _ _ _ _ _ _ C4 O5) as C5. destruct (path_same_rx _ _ _ (proj1 O5)) as (S5 & _). pose proof (same_rx_all _ _ _ S5 Hr4) as Hr5.
  rewrite pitl_eq; [|apply Hr5|apply Hr5]. fold (pend (s_ctx s5)).
  eapply steps_bind; [apply steps_lift|]. cbv beta. intros q s6 t6 (-> & -> & ->). 
  destruct (hdr_kinds (pend (s_ctx s5))) as [(ty & rl & hl & E)|[E|[E|E]]]; [apply Hr5|..]; rewrite E; apply steps_ret; right; (split; [lia|]); exists bs;
    rewrite ?app_nil_l, ?app_nil_r; (split; [rewrite <- !app_assoc in C5; cbn [app]; rewrite ?app_nil_r, ?app_assoc in *; exact C5|]); try discriminate. intros _. exact E.
Qed.
Lemma recv_took s : rx_all G s -> good s -> forall c s1 t1, others s s1 t1 -> good s1 -> c = s_ctx s1 ->
  steps (visit G (recv_into (x_index c) ((zlen (x_buf c) - x_index c) mod g_M G))) s1
    (fun r s' t => good s' /\ exists bs, r < 0 /\ reads [] s s' (t1 ++ t) \/ r = zlen bs /\ took bs s s' (t1 ++ t)).
Proof.
  intros Hr Hg c s1 t1 O1 Hg1 ->. pose proof Hr as ((R0 & R1 & R2 & R3 & R4) & R5). destruct (path_same_rx _ _ _ (proj1 O1)) as (S1 & _).
  pose proof (same_rx_all _ _ _ S1 Hr) as Hr1. destruct S1 as (S1a & S1b & S1c).
  rewrite S1a, S1b. rewrite Z.mod_small by lia.
  apply (steps_visit G n m HM HV); auto. intros s2 t2 O2 Hg2. destruct (path_same_rx _ _ _ (proj1 O2)) as (S2 & _).
  pose proof (same_rx_all _ _ _ S2 Hr1) as Hr2. destruct S2 as (S2a & S2b & S2c). split; [apply recv_into_safe; rewrite ?S2a, ?S1a; lia|].
  intros r s3 t3 H. destruct (recv_reads G _ _ _ _ _ _ Hr2 H) as (bs & R3' & K). split; [eapply (reads_good _ n m); [exact R3'|exact Hg2]|].
  pose proof (others_trans _ _ _ _ _ O1 O2) as O12. exists bs. destruct K as [(K1 & _ & -> & _)|(K1 & K2 & -> & Ec)]; [left|right]; (split; [assumption|]); rewrite app_assoc.
  - change (@nil Z) with (@nil Z ++ []). eapply reads_trans; [apply reads_others; exact O12|exact R3'].
  - split; [change bs with ([] ++ bs); eapply reads_trans; [apply reads_others; exact O12|exact R3']|].
    split; [eapply (settled_trans G); [eapply (path_settled G); apply O12|apply R3'|now apply settled_none]|].
    split; [rewrite Ec; cbn [set_buf x_buf]; now rewrite S2a, S1a|lia].
Qed.
Lemma iteration_steps mk s : rx_all G s -> good s -> steps (c_receiveSingleIteration G mk) s (ipost s).
Proof.
  intros Hr Hg. unfold c_receiveSingleIteration. eapply steps_bind; [apply getc_steps; exact Hg|]. cbv beta. intros c s1 t1 (O1 & Hg1 & Ec).
  eapply steps_bind; [apply (recv_took s Hr Hg c s1 t1); auto|]. cbv beta. intros r s2 t2 (Hg2 & bs & K).
  eapply steps_bind; [exact (head_steps r s s2 (t1 ++ t2) bs Hr Hg2 K)|]. cbv beta. intros (((hs, type), rem), hdr) s3 t3 Hd. unfold headed in Hd.
  set (T := (t1 ++ t2) ++ t3) in *.
  eapply (steps_bind _ _ _ _ (fun st s' t => good s' /\ others s3 s' t /\ (r < 0 -> st = hs) /\ (st = Success -> hs = Success))).
  { assert (Hg3 : good s3). { destruct Hd as [(_ & _ & R & _)|(_ & b & C & _)]; [eapply (reads_good _ n m); [exact R|exact Hg]|eapply came_good; eauto]. }
    destruct ((r =? 0) && mk) eqn:E.
    - eapply steps_bind; [apply keepAlive_idle; exact Hg3|]. cbv beta. intros k s4 t4 (O4 & Hg4 & _). apply steps_ret. rewrite app_nil_r.
      split; auto. split; auto. split; [apply andb_true_iff in E; lia|]. destruct k; cbn [status_beq]; auto; discriminate.
    - apply steps_ret. split; auto. split; [apply others_refl|auto]. }
  cbv beta. intros st s4 t4 (Hg4 & O4 & Hn & Hst). eapply steps_bind; [apply getc_steps; exact Hg4|]. cbv beta. intros c' s5 t5 (O5 & Hg5 & ->).
  pose proof (others_trans _ _ _ _ _ O4 O5) as O45.
  assert (Ex : forall q u, steps (cret (if status_beq q NoDataAvailable then Success else q)) u
     (fun b s' t => s' = u /\ t = [] /\ b = final q)). { intros q u. apply steps_ret. repeat split. }
  destruct Hd as [(N & -> & R & D)|(N & b & C & Hh)].
  { rewrite (Hn N) in *. cbn [status_beq negb]. eapply steps_bind; [apply steps_same|]. cbv beta. intros q u tu (-> & -> & ->). cbn [status_beq].
    eapply steps_bind; [apply steps_same|]. cbv beta. intros q u tu (-> & -> & ->). cbn [status_beq]. apply steps_ret.
    assert (I : ipost s RecvFailed s3 T) by (now apply down_ipost).
    pose proof (ipost_around _ _ _ _ _ _ _ _ (others_refl s) Hr I O45) as J.
    cbn [app] in *. unfold T in J. rewrite <- !app_assoc in *. rewrite ?app_nil_r. exact J. }
  pose proof (came_others _ _ _ _ _ _ C O45) as C5. pose proof (came_rx _ _ _ _ C5 Hr) as Hr5.
  assert (Fin : forall q u t, ipost s5 (final q) u t -> ipost s (final q) u (t1 ++ t2 ++ t3 ++ t4 ++ t5 ++ t)).
  { intros q u t Hi. pose proof (came_ipost _ _ _ _ _ _ _ C5 Hi) as J. unfold T in J. rewrite <- !app_assoc in J. exact J. }
  destruct (status_beq st Success) eqn:Es; cbn [negb].
  2: { eapply steps_bind; [apply steps_same|]. cbv beta. intros q u tu (-> & -> & ->). rewrite Es.
    eapply steps_bind; [apply steps_same|]. cbv beta. intros q u tu (-> & -> & ->). eapply steps_weaken; [apply Ex|]. cbv beta.
    intros a s' t (-> & -> & ->). cbn [app]. apply Fin, ipost_refl, Hr5. }
  assert (st = Success) as -> by (now apply status_beq_eq). pose proof (others_header _ _ _ _ _ _ _ O45 (Hh (Hst eq_refl))) as Hh5.
  destruct (got_header_range _ _ _ _ _ _ (proj1 Hr5) Hh5 eq_refl) as (G1 & G2 & G3 & G4 & _).
  destruct (zlen (x_buf (s_ctx s5)) <? rem + hdr) eqn:Eb.
  { eapply steps_bind; [apply discard_steps; auto; lia|]. cbv beta. intros q u tu Hq.
    assert (Hne : status_beq q Success = false). { destruct Hq as (_ & _ & _ & _ & _ & _ & _ & _ & [-> |(-> & _)] & _); reflexivity. }
    rewrite Hne. eapply steps_bind; [apply steps_same|]. cbv beta. intros q' u' tu' (-> & -> & ->). eapply steps_weaken; [apply Ex|]. cbv beta.
    intros a s' t (-> & -> & ->). cbn [app]. rewrite app_nil_r. apply Fin. eapply dropped_ipost; eauto. lia. }
  destruct (x_index (s_ctx s5) <? rem + hdr) eqn:Ei.
  { eapply steps_bind; [apply steps_same|]. cbv beta. intros q u tu (-> & -> & ->). cbn [status_beq].
    eapply steps_bind; [apply steps_same|]. cbv beta. intros q u tu (-> & -> & ->). eapply steps_weaken; [apply Ex|]. cbv beta.
    intros a s' t (-> & -> & ->). cbn [app]. apply Fin, ipost_refl, Hr5. }
  eapply steps_bind; [apply steps_same|]. cbv beta. intros q u tu (-> & -> & ->). cbn [status_beq].
  eapply steps_bind; [apply (handle_steps mk type rem hdr s5); auto; lia|]. cbv beta. intros q u tu Hq. eapply steps_weaken; [apply Ex|]. cbv beta.
  intros a s' t (-> & -> & ->). cbn [app]. rewrite app_nil_r. now apply Fin.
Qed.
End CP4.
