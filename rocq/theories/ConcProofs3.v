(** The client used from several threads: reading. *)
From Verif Require Import Base StateModel StateSpec StateHarness StateProofs StateProofs2 SerModel WireSpec SerHarness SerProofs SerProofs2 SerProofs3 SerProofs4 SerProofs5
  CoreModel CoreHarness CoreSpec CoreProofs CoreProofs2 CoreProofs3 CoreProofs4 CoreProofs5 CoreProofs6 CoreProofs7 CoreProofs8 CoreProofs9 CoreProofs10 CoreProofs11 CoreProofs12 CoreProofs13 CoreProofs14 CoreProofs15 CoreProofs16 CoreProofs17 CoreProofs18 CoreProofs19 CoreProofs20 CoreProofs21 CoreProofs22 ConcModel ConcHarness ConcProofs ConcProofs2.

Definition serrs (t : list ev) : bool := existsb (fun e => match e with EOutErr => true | _ => false end) t.
Lemma serrs_app a b : serrs (a ++ b) = serrs a || serrs b.
Proof. apply existsb_app. Qed.
Lemma serrs_in t : serrs t = true <-> In EOutErr t.
Proof.
  unfold serrs. rewrite existsb_exists. split; [|intro H; exists EOutErr; auto]. intros (e & H & K). destruct e; try discriminate. exact H.
Qed.
Lemma errs_serrs t : errs t = false -> serrs t = false.
Proof.
  unfold errs, serrs. induction t as [|e t IH]; auto. cbn [existsb]. intro H. apply orb_false_iff in H. destruct H as (H1 & H2). rewrite IH by auto.
  destruct e; auto; discriminate.
Qed.
Lemma hushed_none t : serrs t = false -> hushed t.
Proof. intros H a b ->. rewrite serrs_app in H. cbn in H. rewrite orb_true_r in H. discriminate. Qed.
Lemma hushed_noout t : outs t = [] -> hushed t.
Proof. intros H a b ->. rewrite outs_app in H. apply app_eq_nil in H. apply H. Qed.
Lemma split_app2 {A} (t1 t2 a b : list A) (e : A) : t1 ++ t2 = a ++ e :: b -> (exists c, t1 = a ++ e :: c /\ b = c ++ t2) \/ (exists c, a = t1 ++ c /\ t2 = c ++ e :: b).
Proof.
  revert a. induction t1 as [|x t1 IH]; intros a H; cbn [app] in H; [right; exists a; auto|]. destruct a as [|y a].
  - left. cbn [app] in H. injection H as -> <-. exists t1. auto.
  - cbn [app] in H. injection H as -> H. destruct (IH _ H) as [(c & -> & ->)|(c & -> & ->)]; [left|right]; exists c; auto.
Qed.
Lemma hushed_app t1 t2 : hushed t1 -> hushed t2 -> (serrs t1 = true -> outs t2 = []) -> hushed (t1 ++ t2).
Proof.
  intros H1 H2 K a b E. apply split_app2 in E. destruct E as [(c & -> & ->)|(c & -> & ->)].
  - rewrite outs_app, (H1 a c eq_refl), K; auto. rewrite serrs_app. cbn. apply orb_true_r.
  - now apply (H2 c).
Qed.
Lemma hushed_last t e : serrs t = false -> hushed (t ++ [e]).
Proof.
  intro H. intros a b E. apply split_app2 in E. destruct E as [(c & -> & _)|(c & _ & E)].
  - rewrite serrs_app in H. cbn in H. rewrite orb_true_r in H. discriminate.
  - destruct c as [|x [|y c]]; cbn in E; try discriminate. injection E as _ <-. reflexivity.
Qed.
Lemma silent_serrs t : silent t -> serrs t = false.
Proof. intro H. apply errs_serrs. now apply silent_outs. Qed.
Lemma recv_serrs t : recv_only t -> serrs t = false.
Proof.
  unfold recv_only, serrs. induction t as [|e t IH]; auto. cbn [forallb existsb]. intro H. apply andb_true_iff in H. destruct H as (H1 & H2).
  rewrite IH by auto. destruct e; auto; discriminate.
Qed.

Section CP3.
Variable G : cfg.
Variables n m : nat.
Hypothesis HM : 4294967296 <= g_M G.
Hypothesis HV : 3 <= g_maxvec G.
Notation good := (good n m).

(** ** Steps, with reading ([k]: and connecting) *)
Inductive catom (k : bool) : st -> st -> list ev -> Prop :=
| ca_atom s s' t : atom k s s' t -> catom k s s' t
| ca_take s s' t b i : recv_only t -> env_recvd s s' -> zlen b = zlen (x_buf (s_ctx s)) -> rx_all G s' ->
    s_ctx s' = set_index (set_buf (s_ctx s) b) i -> catom k s s' t
| ca_note s e : is_note e = true -> catom k s s [e]
| ca_broke s : catom k s (mkSt (transport_broke (s_ctx s)) (s_env s)) []
| ca_greet s bs ok s' t : k = true -> x_status (s_ctx s) = NotConnected -> sentb bs s ok s' t -> catom k s s' t
| ca_accept s ka : k = true -> x_status (s_ctx s) = NotConnected -> catom k s (mkSt (connected (s_ctx s) ka) (s_env s)) []
| ca_resend s bs ok s' t : k = true -> x_status (s_ctx s) <> NotConnected -> sentb bs s ok s' t -> catom k s s' t.
Inductive CPath (k : bool) : st -> st -> list ev -> Prop :=
| cp_nil s : CPath k s s []
| cp_step s1 s2 s3 t1 t2 : catom k s1 s2 t1 -> CPath k s2 s3 t2 -> CPath k s1 s3 (t1 ++ t2).
Lemma cpath_one k s s' t : catom k s s' t -> CPath k s s' t.
Proof. intro H. rewrite <- (app_nil_r t). eapply cp_step; [exact H|]. constructor. Qed.
Lemma cpath_app k s1 s2 s3 t1 t2 : CPath k s1 s2 t1 -> CPath k s2 s3 t2 -> CPath k s1 s3 (t1 ++ t2).
Proof.
  intro H. revert s3 t2. induction H as [s|s1 s2 s3 t1 t2 A H IH]; intros s4 t3 K; [exact K|].
  rewrite <- app_assoc. eapply cp_step; eauto.
Qed.
Lemma cpath_path k s s' t : Path false s s' t -> CPath k s s' t.
Proof. intro H. apply path_weak with (d := k) in H. induction H; [constructor|]. eapply cp_step; [apply ca_atom; eauto|auto]. Qed.
Lemma cpath_true k s s' t : CPath false s s' t -> CPath k s s' t.
Proof.
  induction 1 as [|s1 s2 s3 t1 t2 A H IH]; [constructor|]. eapply cp_step; [|exact IH]. clear - A.
  destruct A; try discriminate; [|eapply ca_take|eapply ca_note|eapply ca_broke]; eauto.
  eapply ca_atom. destruct H; try discriminate; [eapply a_local|eapply a_engine|eapply a_send|eapply a_callback]; eauto.
Qed.
Lemma broke_same_rx s : same_rx s (mkSt (transport_broke (s_ctx s)) (s_env s)).
Proof. unfold same_rx. cbn [s_ctx s_env]. destruct (broke_fields (s_ctx s)) as (-> & -> & _). auto. Qed.
Lemma catom_rx k s s' t : catom k s s' t -> rx_all G s -> rx_all G s'.
Proof.
  intros A Hr. destruct A as [s s' t A|s s' t b i A1 A2 A3 A4 A5|s e A|s|s bs ok s' t A1 A2 A3|s ka A1 A2|s bs ok s' t A1 A2 A3]; auto.
  - eapply atom_rx; eauto.
  - eapply same_rx_all; [apply broke_same_rx|exact Hr].
  - eapply same_rx_all; [|exact Hr]. eapply sentb_same_rx; eauto.
  - eapply same_rx_all; [|exact Hr]. eapply sentb_same_rx; eauto.
Qed.
Lemma cpath_rx k s s' t : CPath k s s' t -> rx_all G s -> rx_all G s'.
Proof. induction 1; auto. intro. apply IHCPath. eapply catom_rx; eauto. Qed.
Lemma good_same s s' : x_recs (s_ctx s') = x_recs (s_ctx s) -> e_cbs (s_env s') = e_cbs (s_env s) -> good s -> good s'.
Proof. intros E1 E2 (H1 & H2 & H3). unfold CoreProofs17.good, cbs_ok, cbs_sound in *. rewrite E1, E2. auto. Qed.
Lemma good_sentb bs s ok s' t : sentb bs s ok s' t -> good s -> good s'.
Proof.
  intros H. apply good_same; [eapply sentb_recs; eauto|]. destruct H as (_ & _ & _ & _ & _ & (x & y & ->) & _). reflexivity.
Qed.
Lemma catom_good k s s' t : catom k s s' t -> good s -> good s'.
Proof.
  intros A Hr. destruct A as [s s' t A|s s' t b i A1 A2 A3 A4 A5|s e A|s|s bs ok s' t A1 A2 A3|s ka A1 A2|s bs ok s' t A1 A2 A3]; auto.
  - assert (K : atom false s s' t \/ exists ok, sentb [224; 0] (mkSt (disconnected (s_ctx s)) (s_env s)) ok s' t).
    { destruct A; [left; eapply a_local|left; eapply a_engine|left; eapply a_send|left; eapply a_callback|right; exists ok]; eauto. }
    destruct K as [K|(ok & K)]; [eapply good_path; [|exact Hr]; apply path_one; exact K|]. eapply good_sentb; [exact K|]. eapply good_same; [..|exact Hr]; reflexivity.
  - eapply good_same; [| |exact Hr]; [rewrite A5; reflexivity|]. destruct A2 as (x & y & z & ->). reflexivity.
  - eapply good_same; [| |exact Hr]; [|reflexivity]. cbn [s_ctx]. destruct (broke_fields (s_ctx s)) as (_ & _ & -> & _). reflexivity.
  - eapply good_sentb; eauto.
  - eapply good_sentb; eauto.
Qed.
Lemma cpath_good k s s' t : CPath k s s' t -> good s -> good s'.
Proof. induction 1; auto. intro. apply IHCPath. eapply catom_good; eauto. Qed.

(** ** Connection status and traffic *)
Definition clive (s s' : st) (t : list ev) : Prop :=
  match x_status (s_ctx s) with
  | Connected => hushed t /\ x_status (s_ctx s') <> NotConnected /\ (serrs t = true -> x_status (s_ctx s') = DisconnectPending)
  | x => outs t = [] /\ x_status (s_ctx s') = x
  end.
Lemma clive_quiet s s' t : outs t = [] -> serrs t = false -> x_status (s_ctx s') = x_status (s_ctx s) -> clive s s' t.
Proof.
  intros H1 H2 H3. unfold clive. rewrite H1, H2, H3. destruct (x_status (s_ctx s)); auto. split; [now apply hushed_none|]. split; [discriminate|discriminate].
Qed.
Lemma clive_trans s1 s2 s3 t1 t2 : clive s1 s2 t1 -> clive s2 s3 t2 -> clive s1 s3 (t1 ++ t2).
Proof.
  unfold clive. rewrite outs_app, serrs_app. destruct (x_status (s_ctx s1)).
  - intros (-> & ->) (-> & ->). auto.
  - intros (-> & ->) (-> & ->). auto.
  - intros (Q1 & N1 & E1). destruct (x_status (s_ctx s2)) eqn:E2; [contradiction| |].
    + intros (O & ->). split; [apply hushed_app; auto; now apply hushed_noout|]. split; [discriminate|auto].
    + intros (Q2 & N2 & E3). assert (E : serrs t1 = false) by (destruct (serrs t1); auto; discriminate (E1 eq_refl)).
      rewrite E. cbn [orb]. split; [apply hushed_app; auto; congruence|]. auto.
Qed.
Lemma sentb_hush bs s ok s' t : sentb bs s ok s' t -> hushed t /\
  x_status (s_ctx s') = (if serrs t then match x_status (s_ctx s) with Connected => DisconnectPending | x => x end else x_status (s_ctx s)).
Proof.
  intros (k & l & Q1 & Q2 & Q3 & Q4 & Q5 & Q6 & [(E & ->)|(_ & (t0 & -> & E) & ->)]).
  - rewrite (errs_serrs _ E). split; [apply hushed_none; now apply errs_serrs|reflexivity].
  - rewrite serrs_app. rewrite (errs_serrs _ E). cbn [serrs existsb orb]. split; [apply hushed_last; now apply errs_serrs|]. rewrite broke_status. reflexivity.
Qed.
Lemma atom_clive s s' t : atom false s s' t -> clive s s' t.
Proof.
  intro A. destruct A as [s s' t (E1 & E2 & E3 & E4 & E5) (F1 & F2 & F3) Hs|s o r c H1 H2|s bs ok s' t H1 H2|s ty data id pub result|s ok s' t ? Hn H].
  - pose proof (silent_serrs _ Hs). apply silent_outs in Hs. apply clive_quiet; tauto.
  - now apply clive_quiet.
  - unfold clive. rewrite H1. apply sentb_hush in H2. destruct H2 as (K1 & K2). rewrite K2, H1. split; auto. destruct (serrs t); split; auto; discriminate.
  - now apply clive_quiet.
  - discriminate.
Qed.
Lemma catom_clive s s' t : catom false s s' t -> clive s s' t.
Proof.
  intro A. destruct A as [s s' t A|s s' t b i A1 A2 A3 A4 A5|s e A|s|s bs ok s' t A1 A2 A3|s ka A1 A2|s bs ok s' t A1 A2 A3]; try discriminate.
  - now apply atom_clive.
  - apply clive_quiet; [now apply recv_outs|now apply recv_serrs|]. rewrite A5. reflexivity.
  - destruct e; try discriminate; now apply clive_quiet.
  - unfold clive. cbn [s_ctx]. rewrite broke_status. destruct (x_status (s_ctx s)); auto. split; [now apply hushed_none|]. split; [discriminate|auto].
Qed.
Lemma cpath_clive s s' t : CPath false s s' t -> clive s s' t.
Proof.
  intro H. remember false as k in H. induction H as [s|s1 s2 s3 t1 t2 A H IH]; subst; [now apply clive_quiet|].
  eapply clive_trans; [eapply catom_clive; eauto|auto].
Qed.
(** a connection that ended does not come back *)
Lemma clive_down s s' t : clive s s' t -> x_status (s_ctx s) <> Connected -> x_status (s_ctx s') <> Connected.
Proof. unfold clive. destruct (x_status (s_ctx s)); try contradiction; intros (_ & ->) _; discriminate. Qed.
(** transport errors have been noticed *)
Definition settled (s' : st) (t : list ev) : Prop := errs t = true -> x_status (s_ctx s') <> Connected.
Lemma settled_trans s2 s3 t1 t2 : settled s2 t1 -> CPath false s2 s3 t2 -> settled s3 t2 -> settled s3 (t1 ++ t2).
Proof.
  intros H1 P H2. unfold settled. rewrite errs_app. intro E. apply orb_true_iff in E. destruct E as [E|E]; [|auto].
  eapply clive_down; [apply cpath_clive; exact P|auto].
Qed.
Lemma settled_none s t : errs t = false -> settled s t.
Proof. intros E K. congruence. Qed.
Lemma path_settled s s' t : Path false s s' t -> settled s' t.
Proof.
  intro P. pose proof (cpath_clive _ _ _ (cpath_path false _ _ _ P)) as P'. unfold settled. intros E.
  assert (S : serrs t = true).
  { apply path_same_rx in P. destruct P as (_ & N). unfold no_rx in N. unfold errs in E. apply existsb_exists in E. destruct E as (e & He & Ee).
    rewrite forallb_forall in N. specialize (N e He). apply serrs_in. destruct e; discriminate || exact He. }
  destruct (x_status (s_ctx s)) eqn:Es; unfold clive in P'; rewrite Es in P'.
  - destruct P' as (_ & ->). discriminate.
  - destruct P' as (_ & ->). discriminate.
  - destruct P' as (_ & _ & K). rewrite K by auto. discriminate.
Qed.

(** ** Reading *)
(** the bytes [bs] were read, nothing was handled *)
Definition reads (bs : list Z) (s s' : st) (t : list ev) : Prop :=
  CPath false s s' t /\ zlen (x_buf (s_ctx s')) = zlen (x_buf (s_ctx s)) /\ x_index (s_ctx s') = x_index (s_ctx s) /\
  ins t = bs /\ items t = [] /\ e_in (s_env s) = bs ++ e_in (s_env s') /\ calm_t t /\ incoming s' = incoming s.
Lemma reads_refl s : reads [] s s [].
Proof. repeat split; auto; [constructor|apply calm_nil]. Qed.
Lemma reads_trans a b s1 s2 s3 t1 t2 : reads a s1 s2 t1 -> reads b s2 s3 t2 -> reads (a ++ b) s1 s3 (t1 ++ t2).
Proof.
  intros (A1 & A2 & A3 & A4 & A5 & A6 & A7 & A8) (B1 & B2 & B3 & B4 & B5 & B6 & B7 & B8).
  split; [eapply cpath_app; eauto|]. split; [congruence|]. split; [congruence|]. rewrite ins_app, items_app, A4, B4, A5, B5.
  split; auto. split; auto. split; [rewrite A6, B6; apply app_assoc|]. split; [now apply calm_app|congruence].
Qed.
Lemma reads_others s s' t : others s s' t -> reads [] s s' t.
Proof.
  intros (P & I & F). pose proof (path_same_rx _ _ _ P) as ((E1 & E2 & E3 & _) & N). apply no_rx_items in N. destruct N as (N1 & N2).
  split; [now apply cpath_path|]. rewrite E1, E2, E3. split; auto. split; auto. split; auto. split; auto. split; auto. split; [now apply op_calm|].
  unfold incoming. now rewrite I.
Qed.
Lemma reads_good bs s s' t : reads bs s s' t -> good s -> good s'.
Proof. intros (P & _). eapply cpath_good; eauto. Qed.
Lemma reads_rx bs s s' t : reads bs s s' t -> rx_all G s -> rx_all G s'.
Proof. intros (P & _). eapply cpath_rx; eauto. Qed.
Lemma rx_recvd s s' b : rx_all G s -> bytes_ok b -> zlen b = zlen (x_buf (s_ctx s)) -> bytes_ok (e_in (s_env s')) ->
  s_ctx s' = set_buf (s_ctx s) b -> rx_all G s'.
Proof.
  intros ((R1 & R2 & R3 & R4 & R5) & R6) Hb Hl Hi E. unfold rx_all, rx_ok, pend. rewrite E. cbn [set_buf x_buf x_index]. rewrite Hl.
  split; [|exact Hb]. repeat split; auto; try lia. unfold bytes_ok in *. rewrite Forall_forall in *. intros x Hx. apply Hb.
  rewrite <- (firstn_skipn (Z.to_nat (x_index (s_ctx s))) b). apply in_app_iff. auto.
Qed.
Lemma recv_reads off k s r s' t : rx_all G s -> recv_into off k s = Ret r s' t ->
  exists bs, reads bs s s' t /\ (r < 0 /\ t = [EInErr] /\ bs = [] /\ s_ctx s' = s_ctx s \/
    r = zlen bs /\ r <= k /\ t = [EIn bs] /\ s_ctx s' = set_buf (s_ctx s) (store_at (x_buf (s_ctx s)) off bs)).
Proof.
  intros Hr H. apply recv_into_inv in H.
  destruct H as (H1 & H2 & Hroom & [(Hx & -> & (rv & Ee & a & Ea) & Ec)|(bs & Hx & Hn & -> & Ei & (rv & Ee & a & Ea) & Ec)]).
  - exists []. split; [|left; auto]. rewrite <- (set_buf_id (s_ctx s)) in Ec.
    assert (In' : e_in (s_env s') = e_in (s_env s)) by (rewrite Ee; reflexivity).
    assert (Rx : rx_all G s').
    { eapply rx_recvd; [exact Hr| | | |exact Ec]; [apply Hr|reflexivity|rewrite In'; apply Hr]. }
    split.
    { apply cpath_one. eapply (ca_take _ _ _ _ (x_buf (s_ctx s)) (x_index (s_ctx s))); [reflexivity| | |exact Rx|].
      - exists (e_in (s_env s)), rv, (e_times (s_env s)). rewrite Ee. destruct (s_env s); reflexivity.
      - reflexivity.
      - rewrite Ec. destruct (s_ctx s); reflexivity. }
    rewrite Ec, In'. cbn [set_buf x_buf x_index]. repeat split; auto; [intros e [<-|[]]; reflexivity|]. unfold incoming. now rewrite Ec.
  - exists bs. split; [|right; auto]. pose proof (store_at_len (x_buf (s_ctx s)) off bs H1 ltac:(lia)) as L.
    assert (Rx : rx_all G s').
    { eapply rx_recvd; [exact Hr| |exact L| |exact Ec].
      - apply store_at_bytes; [apply Hr|]. destruct Hr as ((_ & _ & _ & _ & R5) & _). rewrite Ei in R5. apply Forall_app in R5. apply R5.
      - destruct Hr as ((_ & _ & _ & _ & R5) & _). rewrite Ei in R5. apply Forall_app in R5. apply R5. }
    split.
    { apply cpath_one. eapply (ca_take _ _ _ _ (store_at (x_buf (s_ctx s)) off bs) (x_index (s_ctx s))); [reflexivity| | |exact Rx|].
      - exists (e_in (s_env s')), rv, (e_times (s_env s)). rewrite Ee at 1. destruct (s_env s); reflexivity.
      - exact L.
      - rewrite Ec. destruct (s_ctx s); reflexivity. }
    rewrite Ec. cbn [set_buf x_buf x_index]. cbn [ins items flat_map]. rewrite app_nil_r.
    repeat split; auto; [intros e [<-|[]]; reflexivity|]. unfold incoming. now rewrite Ec.
Qed.
Lemma broke_reads s : reads [] s (mkSt (transport_broke (s_ctx s)) (s_env s)) [].
Proof.
  split; [apply cpath_one, ca_broke|]. cbn [s_ctx s_env]. unfold incoming. cbn [s_ctx].
  destruct (broke_fields (s_ctx s)) as (-> & -> & -> & _). repeat split; auto. apply calm_nil.
Qed.
Lemma broke_down c : x_status (transport_broke c) <> Connected.
Proof. rewrite broke_status. destruct (x_status c); discriminate. Qed.
Lemma broke_steps s : good s -> steps (c_broke G) s (fun _ s' t => reads [] s s' t /\ x_status (s_ctx s') <> Connected).
Proof.
  intro Hg. apply (steps_locked G n m HM HV); auto. intros s1 t1 Ho Hg1. split; [safe1|]. intros [] s2 t2 H. apply modc_inv in H.
  destruct H as (-> & ->). split; [|apply broke_down]. change (@nil Z) with (@nil Z ++ []). eapply reads_trans; [apply reads_others; exact Ho|apply broke_reads].
Qed.
(** reading the clock *)
Lemma time_reads s : good s -> steps (visit G getTime) s (fun _ s' t => reads [] s s' t /\ settled s' t).
Proof.
  intro Hg. apply (steps_visit G n m HM HV); auto. intros s1 t1 Ho Hg1. split; [safe1|]. intros a s2 t2 H. apply getTime_inv in H.
  destruct H as (x & r & E & -> & -> & ->). rewrite app_nil_r. split.
  - rewrite <- (app_nil_r t1). change (@nil Z) with (@nil Z ++ []). eapply reads_trans; [apply reads_others; exact Ho|].
    split; [apply cpath_path, path_one, a_local; repeat split|]. repeat split; auto. apply calm_nil.
  - exact (path_settled _ _ _ (proj1 Ho)).
Qed.

Definition read_some (k : Z) (s : st) (r : Z) (s' : st) (t : list ev) : Prop :=
  exists bs, reads bs s s' t /\ settled s' t /\ zlen bs <= Z.max 0 k /\ (0 <= r -> r = zlen bs).
Lemma recvExact_loop_steps fuel : forall off k total last s, rx_all G s -> good s -> 0 <= off -> 0 <= total -> off + k <= zlen (x_buf (s_ctx s)) ->
  steps (c_recvExact_loop G fuel off k total last) s (fun r s' t =>
    exists bs, reads bs s s' t /\ settled s' t /\ zlen bs <= Z.max 0 k /\ (0 <= r -> r = total + zlen bs)).
Proof.
  induction fuel as [|fuel IH]; intros off k total last s Hr Hg Ho Ht Hb; cbn [c_recvExact_loop].
  { apply steps_atomic; [safe1|]. discriminate. }
  destruct (0 <? k) eqn:Ek.
  2: { apply steps_ret. exists []. split; [apply reads_refl|]. split; [now apply settled_none|]. change (zlen []) with 0. split; lia. }
  eapply (steps_bind _ _ _ _ (fun r s' t => exists bs, reads bs s s' t /\ (r < 0 /\ bs = [] \/ r = zlen bs /\ r <= k /\ settled s' t))).
  { apply (steps_visit G n m HM HV); auto. intros s1 t1 Hoth Hg1. pose proof (reads_others _ _ _ Hoth) as R1. pose proof (reads_rx _ _ _ _ R1 Hr) as Hr1.
    split.
    - apply recv_into_safe; try lia. destruct R1 as (_ & -> & _). lia.
    - intros r s2 t2 H. apply recv_reads in H; auto. destruct H as (bs & R2 & K). exists bs. split; [change bs with ([] ++ bs); eapply reads_trans; eauto|].
      destruct K as [(K1 & _ & K2 & _)|(K1 & K2 & -> & _)]; [left; auto|right]. split; auto. split; auto.
      eapply settled_trans; [eapply path_settled; apply Hoth|apply R2|now apply settled_none]. }
  cbv beta. intros r s1 t1 (bs & R1 & K). pose proof (reads_good _ _ _ _ R1 Hg) as Hg1. pose proof (reads_rx _ _ _ _ R1 Hr) as Hr1.
  destruct K as [(K1 & ->)|(K1 & K2 & K3)].
  - replace (r <? 0) with true by lia. eapply steps_bind; [apply broke_steps; exact Hg1|]. cbv beta. intros _ s2 t2 (R2 & D).
    apply steps_ret. rewrite app_nil_r. exists []. split; [change (@nil Z) with (@nil Z ++ []); eapply reads_trans; eauto|]. split; [intros _; exact D|].
    change (zlen []) with 0. split; lia.
  - pose proof (CoreProofs.zlen_nonneg bs). replace (r <? 0) with false by lia. destruct (0 <? r) eqn:Er.
    + eapply steps_bind; [apply time_reads; exact Hg1|]. cbv beta. intros now s2 t2 (R2 & D2).
      pose proof (reads_good _ _ _ _ R2 Hg1) as Hg2. pose proof (reads_rx _ _ _ _ R2 Hr1) as Hr2.
      eapply (steps_bind _ _ _ _ (fun _ s' t => s' = s2 /\ t = [])).
      { apply steps_atomic; [apply safe_massert; lia|]. intros [] s' t E. mgo E. auto. }
      cbv beta. intros _ s3 t3 (-> & ->). eapply steps_weaken; [apply IH; auto; try lia|].
      { destruct R1 as (_ & L1 & _), R2 as (_ & L2 & _). lia. }
      cbv beta. intros r' s4 t4 (bs' & R3 & D3 & K4 & K5). exists (bs ++ bs'). rewrite app_nil_l. rewrite CoreProofs.zlen_app.
      split; [change bs with ([] ++ bs) in R1 |- *; eapply reads_trans; [exact R1|]; change bs' with ([] ++ bs'); eapply reads_trans; eauto|].
      split; [|split; [lia|intro; specialize (K5 H0); lia]].
      eapply settled_trans; [exact K3|eapply cpath_app; [apply R2|apply R3]|]. eapply settled_trans; [exact D2|apply R3|exact D3].
    + eapply steps_bind; [apply time_reads; exact Hg1|]. cbv beta. intros now s2 t2 (R2 & D2).
      pose proof (reads_good _ _ _ _ R2 Hg1) as Hg2. pose proof (reads_rx _ _ _ _ R2 Hr1) as Hr2.
      assert (bs = []) as -> by (destruct bs; auto; unfold zlen in *; cbn [length] in *; lia).
      assert (D12 : settled s2 (t1 ++ t2)) by (eapply settled_trans; [exact K3|apply R2|exact D2]).
      assert (R12 : reads [] s s2 (t1 ++ t2)) by (change (@nil Z) with (@nil Z ++ []); eapply reads_trans; eauto).
      destruct (g_poll G <=? _).
      * apply steps_ret. rewrite app_nil_r. exists []. change (zlen []) with 0. repeat split; auto; try lia; apply R12.
      * eapply steps_weaken; [apply IH; auto; destruct R12 as (_ & -> & _); lia|]. cbv beta. intros r' s4 t4 (bs' & R3 & D3 & K4 & K5). exists bs'.
        rewrite app_assoc. split; [change bs' with ([] ++ bs'); eapply reads_trans; eauto|]. split; auto. eapply settled_trans; [exact D12|apply R3|exact D3].
Qed.
Lemma recvExact_steps k s : rx_all G s -> good s -> k <= zlen (x_buf (s_ctx s)) -> steps (c_recvExact G k) s (read_some k s).
Proof.
  intros Hr Hg Hk. unfold c_recvExact.
  eapply (steps_bind _ _ _ _ (fun _ s' t => s' = s /\ t = [])).
  { apply steps_atomic; [apply safe_bind; [safe1|]; intros c s1 t1 H; mgo H; apply safe_massert; lia|]. intros [] s' t E. mgo E. auto. }
  cbv beta. intros _ s0 t0 (-> & ->).
  eapply steps_bind; [apply time_reads; exact Hg|]. cbv beta. intros now s1 t1 (R1 & D1).
  pose proof (reads_good _ _ _ _ R1 Hg) as Hg1. pose proof (reads_rx _ _ _ _ R1 Hr) as Hr1.
  eapply (steps_bind _ _ _ _ (fun _ s' t => s' = s1 /\ t = [])).
  { apply steps_atomic; [safe1|]. intros e s' t E. apply gete_inv in E. tauto. }
  cbv beta. intros e s2 t2 (-> & ->). eapply steps_weaken; [apply recvExact_loop_steps; auto; try lia; destruct R1 as (_ & -> & _); lia|].
  cbv beta. intros r s2 t2 (bs & R2 & D2 & K1 & K2). exists bs. cbn [app]. split; [change bs with ([] ++ bs); eapply reads_trans; eauto|].
  split; [eapply settled_trans; [exact D1|apply R2|exact D2]|]. split; auto.
Qed.
Lemma discardStored_steps fuel : forall btr rem total s, rx_all G s -> good s -> btr <= zlen (x_buf (s_ctx s)) -> 0 <= btr -> 0 <= total -> rem < 4294967296 ->
  steps (c_discardStored_loop G fuel btr rem total) s (fun r s' t => exists bs, reads bs s s' t /\ settled s' t /\
    total <= r <= Z.max total rem /\ (r = rem -> zlen bs = rem - total \/ rem < total)).
Proof.
  induction fuel as [|fuel IH]; intros btr rem total s Hr Hg Hb Hb0 Ht Hrem; cbn [c_discardStored_loop].
  { apply steps_atomic; [safe1|]. discriminate. }
  destruct (total <? rem) eqn:E.
  2: { apply steps_ret. exists []. split; [apply reads_refl|]. split; [now apply settled_none|]. change (zlen []) with 0. split; lia. }
  set (b := if rem - total <? btr then rem - total else btr) in *.
  assert (Hbb : 0 <= b <= rem - total /\ b <= btr) by (subst b; destruct (rem - total <? btr) eqn:?; lia). clearbody b.
  eapply steps_bind; [apply recvExact_steps; auto; lia|]. intros r s1 t1 (bs & R1 & D1 & K1 & K2). cbv beta.
  pose proof (reads_good _ _ _ _ R1 Hg) as Hg1. pose proof (reads_rx _ _ _ _ R1 Hr) as Hr1.
  destruct (r =? b) eqn:Er; cbn [negb].
  - assert (r = zlen bs) by lia. rewrite u32_id by lia. eapply steps_weaken; [apply IH; auto; try lia; destruct R1 as (_ & -> & _); lia|].
    cbv beta. intros r' s2 t2 (bs' & R2 & D2 & Q1 & Q2). exists (bs ++ bs'). rewrite CoreProofs.zlen_app. split; [eapply reads_trans; eauto|].
    split; [eapply settled_trans; [exact D1|apply R2|exact D2]|]. split; lia.
  - apply steps_ret. rewrite app_nil_r. exists bs. split; auto. split; auto. split; lia.
Qed.
End CP3.
