(** A client that takes the packets from the bytes it reads: histories of calls. *)
From Verif Require Import Base StateModel StateSpec StateHarness StateProofs StateProofs2 SerModel WireSpec SerHarness SerProofs SerProofs2 SerProofs3 SerProofs4 SerProofs5
  CoreModel CoreHarness CoreSpec CoreProofs CoreProofs2 CoreProofs3 CoreProofs4 CoreProofs5 CoreProofs6 CoreProofs7 CoreProofs8 CoreProofs9 CoreProofs10 CoreProofs11 CoreProofs12 CoreProofs13 CoreProofs14 CoreProofs15 CoreProofs16 CoreProofs17 CoreProofs18 CoreProofs19 CoreProofs20 CoreProofs21 CoreProofs22 ConcModel ConcHarness ConcProofs ConcProofs2 ConcProofs3 ConcProofs4 ConcProofs5 ConcProofs6 ConcProofs7 FreshProofs
  Machine MachSpec MachProofs MachProofs2 MachProofs3 MachProofs4 MachProofs5 NetSpec OutSpec InSpec ByteSpec ByteProofs ByteProofs3 ByteProofs4.

(** ** The last connection *)
Lemma starts_begins x : starts x = begins x.
Proof. destruct x as [[]|[] ?|]; reflexivity. Qed.
Lemma recent_more l : forall k, Forall (fun x => starts x = false) l -> recent (k ++ l) = recent k ++ l.
Proof.
  induction l as [|x l IH]; intros k F; [now rewrite !app_nil_r|]. inversion F as [|? ? Fx Fl]; subst. change (x :: l) with ([x] ++ l). rewrite app_assoc, IH, recent_snoc by auto.
  rewrite <- starts_begins, Fx, <- app_assoc. reflexivity.
Qed.
Lemma starts_more k l : Forall (fun x => starts x = false) l -> existsb starts (k ++ l) = existsb starts k.
Proof. intro F. rewrite existsb_app. replace (existsb starts l) with false; [apply orb_false_r|]. induction F as [|x l E F IH]; auto. cbn. now rewrite E, <- IH. Qed.
Lemma recent_suffix l : exists p, l = p ++ recent l.
Proof.
  induction l as [|x l (p & IH)] using rev_ind; [exists []; reflexivity|]. rewrite recent_snoc. destruct (begins x); [exists (l ++ [x]); now rewrite app_nil_r|].
  exists p. rewrite app_assoc, <- IH. reflexivity.
Qed.
Lemma recent_starts l : forall k, existsb starts l = true -> recent (k ++ l) = recent l.
Proof.
  induction l as [|x l IH] using rev_ind; intros k H; [discriminate|]. rewrite app_assoc, !recent_snoc. destruct (begins x) eqn:E; [reflexivity|].
  rewrite existsb_app in H. cbn [existsb] in H. rewrite starts_begins, E, !orb_false_r in H. now rewrite IH.
Qed.

(** ** No connection without a CONNACK *)
Fixpoint nowait (j : job) : Prop :=
  match j with Wait _ _ => False | Clear _ j | Show _ j | Owe _ _ j | Note _ _ j => nowait j | _ => True end.
Definition wrel (k : list tok) (M : mstate) : Prop :=
  (match m_job M with Wait _ bs => existsb starts k = true /\ tins (recent k) = bs | j => nowait j end) /\
  (m_conn M <> NotConnected -> existsb starts k = true /\ (4 <= length (tins (recent k)))%nat).
Lemma wrel_conn k l a b : Forall (fun x => starts x = false) l -> (m_conn b <> NotConnected -> m_conn a <> NotConnected) -> wrel k a ->
  m_conn b <> NotConnected -> existsb starts (k ++ l) = true /\ (4 <= length (tins (recent (k ++ l))))%nat.
Proof.
  intros F C (_ & H) N. destruct (H (C N)) as (H1 & H2). rewrite starts_more, recent_more, tins_app, app_length by auto. split; auto. lia.
Qed.
Lemma wrel_more k l a b : Forall (fun x => starts x = false) l -> (m_conn b <> NotConnected -> m_conn a <> NotConnected) -> nowait (m_job b) -> wrel k a -> wrel (k ++ l) b.
Proof. intros F C J H. split; [|eapply wrel_conn; eauto]. destruct (m_job b); auto. contradiction. Qed.
Lemma wrel_same k l a b : Forall (fun x => starts x = false) l -> tins l = [] -> (m_conn b <> NotConnected -> m_conn a <> NotConnected) -> m_job b = m_job a -> wrel k a -> wrel (k ++ l) b.
Proof.
  intros F T C J H. split; [|eapply wrel_conn; eauto]. destruct H as (H & _). rewrite J. destruct (m_job a); auto. rewrite starts_more, recent_more, tins_app, T, app_nil_r by auto. exact H.
Qed.
Lemma sends_tok p c ok l c' : sends p c ok l c' -> opens p = false -> Forall (fun x => starts x = false) l /\ tins l = [] /\ (c' <> NotConnected -> c <> NotConnected).
Proof. intros H K. destruct H; (split; [constructor; auto; destruct p; auto; discriminate|]); (split; [reflexivity|]); auto. destruct c; cbn; congruence. Qed.
Lemma kept_tok rt mm ok l : kept_copy rt mm ok l -> Forall (fun x => starts x = false) l /\ tins l = [].
Proof. unfold kept_copy. destruct rt; [intros (v & _ & ->)|intros (_ & ->)]; split; auto. Qed.
Lemma clears_tok l : Forall (fun x => starts x = false) (map (fun id => Did (EClear id)) l) /\ tins (map (fun id => Did (EClear id)) l) = [].
Proof. induction l as [|x l (IH1 & IH2)]; split; cbn; auto. Qed.
Lemma nowait_of k a : wrel k a -> (forall cl bs, m_job a <> Wait cl bs) -> nowait (m_job a).
Proof. intros (H & _) N. destruct (m_job a); auto. exfalso. eapply N. reflexivity. Qed.
Lemma nowait_give j : nowait (give_up j). Proof. destruct j; exact I. Qed.
Lemma mstep_w rt cn k a l b : mstep rt cn a l b -> wrel k a -> wrel (k ++ l) b.
Proof.
  intros H W.
  pose proof (nowait_of _ _ W) as NW.
  destruct H; cbn [m_job m_conn] in *;
    try (match goal with K : sends ?p _ _ _ _ |- _ => destruct (sends_tok _ _ _ _ _ K eq_refl) as (T1 & T2 & T3) end);
    try (eapply wrel_same; [..|exact W]; [assumption|assumption|cbn; auto; fail|reflexivity]; fail);
    try (eapply wrel_same; [..|exact W]; [repeat constructor|reflexivity|cbn; auto|reflexivity]; fail);
    try (eapply wrel_more; [..|exact W]; [first [assumption|repeat constructor]|cbn; auto|cbn; first [exact I|apply NW; discriminate|apply nowait_give]]; fail).
  - apply kept_tok in H2. destruct H2 as (K1 & K2). assert (X : Forall (fun x => starts x = false) l /\ tins l = []).
    { destruct ok; [apply sends_tok in H3; auto; destruct H3 as (? & ? & _); auto|destruct H3 as (_ & -> & _); auto]. }
    destruct X as (X1 & X2). eapply wrel_same; [..|exact W]; [apply Forall_app; auto|rewrite tins_app, K2, X2; reflexivity|cbn; discriminate|reflexivity].
  - eapply wrel_more; [..|exact W]; [constructor|cbn; destruct c; cbn; congruence|exact I].
  - eapply wrel_more; [..|exact W]; [constructor|auto|]. unfold told. cbn. destruct k0, rt; cbn; exact I.
  - eapply wrel_more; [..|exact W]; [assumption|cbn; auto|]. cbn. destruct ok; [apply NW; discriminate|apply nowait_give].
  - eapply wrel_more; [..|exact W]; [constructor|auto|]. cbn. destruct (status_beq _ _); [apply NW; discriminate|apply nowait_give].
  - split; [|cbn; contradiction]. cbn [m_job]. inversion H0; subst; [|exact I|exact I]. split; [rewrite existsb_app; apply orb_true_r|]. rewrite recent_snoc. reflexivity.
  - split; [|eapply wrel_conn; [repeat constructor| |exact W]; auto]. destruct W as ((W1 & W2) & _). cbn [m_job]. rewrite starts_more, recent_more, tins_app, W2 by repeat constructor.
    split; auto. cbn. now rewrite app_nil_r.
  - split; [exact I|]. destruct W as ((W1 & W2) & _). cbn [m_conn]. intros _. set (l := if rt then _ else _). assert (X : Forall (fun x => starts x = false) l) by (subst l; destruct rt; auto; apply clears_tok).
    rewrite starts_more, recent_more, tins_app, W2, app_length by auto. split; auto. cbn [length]. lia.
  - split; [exact I|]. destruct W as ((W1 & W2) & _). cbn [m_conn]. intros _. rewrite app_nil_r, W2. split; auto.
  - eapply wrel_more; [..|exact W]; [repeat constructor|auto|]. cbn. destruct r; exact I.
  - eapply wrel_more; [..|exact W]; [assumption|cbn; auto|]. cbn. destruct ok; exact I.
Qed.
Lemma run_w rt cn a l b : Run rt cn a l b -> forall k, wrel k a -> wrel (k ++ l) b.
Proof. induction 1 as [|a l1 b l2 d H R IH]; intros k W; [now rewrite app_nil_r|]. rewrite app_assoc. apply IH. eapply mstep_w; eauto. Qed.

(** ** Events and tokens *)
Lemma send_rx b : send_only b -> ins b = [] /\ items b = [].
Proof. intro H. apply send_no_rx, no_rx_items in H. tauto. Qed.
Lemma says_rx t l : Says t l -> ins t = tins l /\ items t = titems l.
Proof.
  induction 1 as [|p b t l H1 H2 H3 H (IH1 & IH2)|p k b t l H1 H2 H3 H4 H (IH1 & IH2)|p k b t l H1 H2 H3 H4 H (IH1 & IH2)|e t l H1 H (IH1 & IH2)]; auto;
    try (destruct (send_rx _ H1) as (E1 & E2); rewrite ins_app, items_app, E1, E2; cbn; auto; fail).
  split; [change (ins (e :: t)) with (ins ([e] ++ t)); rewrite ins_app|change (items (e :: t)) with (items ([e] ++ t)); rewrite items_app]; rewrite ?IH1, ?IH2; destruct e; cbn; rewrite ?app_nil_r; reflexivity.
Qed.
Lemma says_split l1 : forall t e l2, Says t (l1 ++ Did e :: l2) -> exists t1 t2, t = t1 ++ e :: t2 /\ Says t1 l1 /\ Says t2 l2.
Proof.
  induction l1 as [|x l1 IH]; intros t e l2 H; cbn [app] in H.
  - inversion H; subst. exists [], t0. split; auto. split; [constructor|auto].
  - inversion H as [|p b u l A1 A2 A3 A E1 E2|p k b u l A1 A2 A3 A4 A E1 E2|p k b u l A1 A2 A3 A4 A E1 E2|e0 u l A1 A E1 E2]; subst; apply IH in A; destruct A as (t1 & t2 & -> & S1 & S2).
    + exists (b ++ t1), t2. rewrite <- app_assoc. split; auto. split; auto. now apply says_sent.
    + exists (b ++ t1), t2. rewrite <- app_assoc. split; auto. split; auto. eapply says_cut; eauto.
    + exists (b ++ EOutErr :: t1), t2. rewrite <- app_assoc. split; auto. split; auto. eapply says_err; eauto.
    + exists (e0 :: t1), t2. split; auto. split; auto. now apply says_did.
Qed.

(** ** A call *)
Section BP5.
Variable G : cfg.
Variables n m : nat.
Variables rt cn : bool.
Hypothesis HM : 4294967296 <= g_M G.
Hypothesis HV : 3 <= g_maxvec G.
Hypothesis HB : g_big G = false.
Notation good := (good n m).
Notation Inv := (Inv G n m rt cn).
Variable Bz : Z.
(** what was read and what was handled on the last connection *)
Definition onwire (k : list tok) (s : st) : Prop :=
  exists c4 bytes, length c4 = 4%nat /\ tins (recent k) = c4 ++ bytes ++ pend (s_ctx s) /\ Frames Bz (titems (recent k)) bytes.
Definition SI (k : list tok) (ok : bool) (s : st) : Prop :=
  Fed Bz k /\ blank s /\ zlen (x_buf (s_ctx s)) = Bz /\ (x_status (s_ctx s) <> NotConnected -> ok = true -> onwire k s).
Lemma fed_none k l : titems l = [] -> Fed Bz k -> Fed Bz (k ++ l).
Proof.
  intros T (F1 & F2). split; intros k1 ty x k2 E; apply split_app2 in E; destruct E as [(c & -> & _)|(c & _ & ->)]; eauto;
    rewrite titems_app in T; apply app_eq_nil in T; destruct T as (_ & T); discriminate.
Qed.
Lemma fed_shaped k l s t : Forall (fun x => starts x = false) l -> Says t l -> onwire k s -> shaped s t -> Fed Bz k -> Fed Bz (k ++ l).
Proof.
  intros F S (c4 & bytes & L & E & Fr) (S1 & S2) (F1 & F2).
  assert (K : forall c e l2 t1 h more, l = c ++ Did e :: l2 -> Says t1 c -> items t1 = [] -> pend (s_ctx s) ++ ins t1 = h ++ more -> reached Bz (k ++ c) h more).
  { intros c e l2 t1 h more -> Sc I E1. apply Forall_app in F. destruct F as (F & _). apply says_rx in Sc. destruct Sc as (Sc1 & Sc2). exists c4, bytes.
    rewrite recent_more, tins_app, titems_app, <- Sc1, <- Sc2, I, app_nil_r, E, <- !app_assoc, E1 by auto. auto. }
  split; intros k1 ty x k2 Ek; apply split_app2 in Ek; destruct Ek as [(c & -> & _)|(c & -> & El)]; eauto; pose proof S as S'; rewrite El in S'; apply says_split in S'; destruct S' as (t1 & t2 & Et & Sc & _).
  - destruct (S1 _ _ _ _ Et) as (I & h & more & Hh & E1). exists h, more. split; auto. eapply K; eauto.
  - destruct (S2 _ _ _ _ Et) as (I & h & more & Hh & E1). exists h, more. split; auto. eapply K; eauto.
Qed.
(** nothing read, the buffer as it was *)
Lemma onwire_quiet k l s s' t : Forall (fun x => starts x = false) l -> Says t l -> qrx s s' t -> onwire k s -> onwire (k ++ l) s'.
Proof.
  intros F S (A1 & A2 & A3 & A4 & _) (c4 & bytes & L & E & Fr). apply says_rx in S. destruct S as (S1 & S2). exists c4, bytes. split; auto.
  rewrite recent_more, tins_app, titems_app, <- S1, <- S2, A3, A4, !app_nil_r by auto. unfold pend in *. rewrite A1, A2. auto.
Qed.
Lemma op_path o s : op_sound o -> rx_all G s -> good s -> steps (c_run_call G (COp o)) s (fun _ s' t => Path true s s' t).
Proof.
  intros Hs Hr Hg. cbn [c_run_call]. apply (steps_locked G n m HM HV); auto. intros s1 t1 O1 Hg1. split; [eapply run_op_safe; eauto; apply Hg1|]. intros a s2 t2 E.
  eapply path_app; [eapply path_weak, O1|]. eapply run_op_path; [|exact E]. auto.
Qed.
Definition cstart (c : call) (s : st) : bool := call_conn c && cstatus_beq (x_status (s_ctx s)) NotConnected.
Lemma call_fed c k ok w s r w' s' t : call_sound c -> call_fits (g_M G) cn c -> rx_all G s -> Inv s -> wok G cn w ->
  (loop_call c = true -> x_status (s_ctx s) <> NotConnected /\ ok = true) -> SI k ok s ->
  c_run_call G c w s = Ret (Some r, w') s' t ->
  exists l, Says t l /\ Run rt cn (ms n m s Idle) l (ms n m s' Idle) /\ SI (k ++ l) (still ok c s r) s' /\ Inv s' /\ rx_all G s' /\ wok G cn w'.
Proof.
  intros Hs Hf Hr HI Hw Hc (F & Bl & Z & On) E.
  destruct (shared_call G n m HM HV c w s _ _ _ _ Hs Hr (proj1 HI) (proj1 Hw) E) as (_ & Hr1 & _ & P & Ip & _ & Lv).
  assert (Hcc : call_conn c = true -> x_status (s_ctx s) = NotConnected -> cstart c s = true) by (intros A B; unfold cstart; rewrite A, B; reflexivity).
  destruct (@clogs_call (cstart c s) G n m rt cn HM HV HB c s Hcc Hs Hf Hr HI I _ _ _ _ _ Hw E) as (W1 & I1 & j' & _ & (l & S & R & U) & ->).
  exists l. split; auto. split; auto. split; [|auto]. pose proof (cpath_len _ _ _ _ _ P) as Zl. rewrite Z in Zl.
  pose proof (says_rx _ _ S) as (Sx1 & Sx2).
  destruct c as [o|ci will tmo| |].
  - unfold still, cstart in *. cbn [conn_call call_conn andb] in *. specialize (U eq_refl).
    destruct (op_path o s Hs Hr (proj1 HI) w (proj1 Hw)) as (_ & K). destruct (K _ _ _ _ E) as (_ & a & Ea & Pt). clear K.
    destruct (path_drx _ _ _ Pt) as (D1 & D2 & D3 & D4). split; [apply fed_none; congruence|]. split; [eapply path_blank; eauto|]. split; auto.
    intros N K. apply andb_true_iff in K. specialize (D4 N). eapply onwire_quiet; eauto. apply On; [|tauto]. tauto.
  - assert (Rx : rrx s s' t).
    { cbn [c_run_call] in E. apply cbind_some in E. destruct E as ((st, sp) & w1 & s1 & t1 & t2 & E1 & E2 & ->). unfold cret, ret in E2. injection E2 as _ _ <- <-. rewrite app_nil_r.
      destruct (connect_rx G n m HM HV ci will tmo s Hs Hr (proj1 HI) w (proj1 Hw)) as (_ & K). exact (proj2 (K _ _ _ _ E1)). }
    destruct Rx as (D1 & D2 & D3). split; [apply fed_none; congruence|]. unfold still, cstart in *. cbn [conn_call call_conn andb] in *.
    destruct (cstatus_beq (x_status (s_ctx s)) NotConnected) eqn:Eq.
    + assert (N : x_status (s_ctx s) = NotConnected) by (destruct (x_status (s_ctx s)); auto; discriminate). destruct (D3 N) as (D4 & D5). specialize (D4 (Bl N)).
      split; [intros _; exact D4|]. split; auto. intros N' _. specialize (D5 N').
      assert (W : wrel ([] ++ l) (ms n m s' Idle)) by (eapply run_w; [exact R|]; split; [exact I|cbn; contradiction]). destruct W as (_ & W). destruct (W N') as (W2 & W3). cbn [app] in W2, W3.
      destruct (recent_suffix l) as (p & Ep). exists (tins (recent l)), []. rewrite recent_starts by auto.
      assert (Ti : tins l = tins p ++ tins (recent l)) by (rewrite <- tins_app, <- Ep; reflexivity).
      assert (Tt : titems l = titems p ++ titems (recent l)) by (rewrite <- titems_app, <- Ep; reflexivity).
      rewrite <- Sx2, D1 in Tt. symmetry in Tt. apply app_eq_nil in Tt. destruct Tt as (_ & ->).
      split; [rewrite <- Sx1 in Ti; rewrite Ti, app_length in D5; lia|]. split; [unfold pend; rewrite D4; cbn; now rewrite app_nil_r|constructor].
    + assert (N : x_status (s_ctx s) <> NotConnected) by (intro X; rewrite X in Eq; discriminate). specialize (D2 N). specialize (U eq_refl).
      split; [intro X; exfalso; apply N; apply D2, X|]. split; auto. intros N' K. apply andb_true_iff in K. eapply onwire_quiet; eauto. apply On; tauto.
  - destruct (Hc eq_refl) as (N & ->). specialize (On N eq_refl). unfold still, cstart in *. cbn [conn_call call_conn andb] in *. specialize (U eq_refl).
    destruct (loop_shaped G n m HM HV CProcess s eq_refl Hr (proj1 HI) w (proj1 Hw)) as (_ & K). destruct (K _ _ _ _ E) as (_ & _ & _ & Sh). clear K.
    assert (N' : x_status (s_ctx s') <> NotConnected).
    { specialize (Lv eq_refl N). apply cpath_clive in Lv. unfold clive in Lv. destruct (x_status (s_ctx s)); [contradiction| |]; destruct Lv as (L1 & L2); [congruence|tauto]. }
    split; [eapply fed_shaped; eauto|]. split; [intro; contradiction|]. split; auto. intros _ K.
    destruct (Ip eq_refl) as (_ & Fm & _). assert (Nr : r <> RecvFailed) by (intros ->; discriminate). destruct (Fm Nr) as (_ & _ & _ & by2 & Fr2 & Eb).
    destruct On as (c4 & bytes & L & E0 & Fr). exists c4, (bytes ++ by2). split; auto. rewrite recent_more, tins_app, titems_app, <- Sx1, <- Sx2, E0, <- !app_assoc, Eb by auto.
    split; auto. apply frames_app; auto. now rewrite <- Z.
  - destruct (Hc eq_refl) as (N & ->). specialize (On N eq_refl). unfold still, cstart in *. cbn [conn_call call_conn andb] in *. specialize (U eq_refl).
    destruct (loop_shaped G n m HM HV CReceive s eq_refl Hr (proj1 HI) w (proj1 Hw)) as (_ & K). destruct (K _ _ _ _ E) as (_ & _ & _ & Sh). clear K.
    assert (N' : x_status (s_ctx s') <> NotConnected).
    { specialize (Lv eq_refl N). apply cpath_clive in Lv. unfold clive in Lv. destruct (x_status (s_ctx s)); [contradiction| |]; destruct Lv as (L1 & L2); [congruence|tauto]. }
    split; [eapply fed_shaped; eauto|]. split; [intro; contradiction|]. split; auto. intros _ K.
    destruct (Ip eq_refl) as (_ & Fm & _). assert (Nr : r <> RecvFailed) by (intros ->; discriminate). destruct (Fm Nr) as (_ & _ & _ & by2 & Fr2 & Eb).
    destruct On as (c4 & bytes & L & E0 & Fr). exists c4, (bytes ++ by2). split; auto. rewrite recent_more, tins_app, titems_app, <- Sx1, <- Sx2, E0, <- !app_assoc, Eb by auto.
    split; auto. apply frames_app; auto. now rewrite <- Z.
Qed.
Lemma calls_fed l : forall k ok w s rs w' s' t, Forall call_sound l -> Forall (call_fits (g_M G) cn) l -> rx_all G s -> Inv s -> wok G cn w ->
  careful G ok l w s -> SI k ok s -> c_run_calls G l w s = Ret (Some rs, w') s' t ->
  exists l', Says t l' /\ Run rt cn (ms n m s Idle) l' (ms n m s' Idle) /\ Fed Bz (k ++ l').
Proof.
  induction l as [|c l IH]; intros k ok w s rs w' s' t Hs Hf Hr HI Hw Hc HS E.
  - apply calls_nil in E. destruct E as (_ & _ & -> & ->). exists []. split; [constructor|]. split; [constructor|]. rewrite app_nil_r. apply HS.
  - apply calls_cons in E. destruct E as (r & w1 & s1 & t1 & rs2 & t2 & E1 & E2 & -> & _). apply Forall_cons_iff in Hs, Hf. destruct Hs as (H1 & H2), Hf as (H3 & H4).
    cbn [careful] in Hc. rewrite E1 in Hc. destruct Hc as (C1 & C2).
    destruct (call_fed c k ok w s r w1 s1 t1 H1 H3 Hr HI Hw C1 HS E1) as (l1 & S1 & R1 & HS1 & I1 & Hr1 & W1).
    destruct (IH _ _ _ _ _ _ _ _ H2 H4 Hr1 I1 W1 C2 HS1 E2) as (l2 & S2 & R2 & F2). exists (l1 ++ l2). split; [now apply says_app|]. split; [eapply run_app; eauto|]. now rewrite app_assoc.
Qed.
End BP5.
(** every history of calls is one of a client that takes its packets from the bytes it reads *)
Lemma history_fed G n m cn l w s rs w' s' t : legal G n m l w s -> g_big G = false -> all_fit G cn l w s -> careful G true l w s ->
  c_run_calls G l w s = Ret (Some rs, w') s' t ->
  exists k, Says t k /\ Run (x_retr (s_ctx s)) cn (mkM NotConnected (fresh_session n m) 1 Idle) k
    (mkM (x_status (s_ctx s')) (session_of n m s') (x_nextId (s_ctx s')) Idle) /\ Fed (zlen (x_buf (s_ctx s))) k.
Proof.
  intros Hl HB (F1 & F2 & F3) Hc E. destruct (legal_inv _ _ _ _ _ _ Hl) as (HM & HV & Hr & Hg & Hw & Hs). destruct Hl as (Ho & _ & Hcb & _).
  destruct (opened_machine _ _ _ cn _ Ho Hcb F3) as (HI & E0).
  assert (HS : SI (zlen (x_buf (s_ctx s))) [] true s).
  { split; [split; intros [|] ? ? ? X; discriminate|]. destruct Ho as (buf & retr & e & H1 & H2 & H3 & H4 & H5 & ->). split; [intros _; reflexivity|]. split; auto. cbn. contradiction. }
  destruct (calls_fed G n m (x_retr (s_ctx s)) cn HM HV HB _ _ _ _ _ _ _ _ _ _ Hs F1 Hr HI (conj Hw F2) Hc HS E) as (k & S & R & F). rewrite E0 in R. exists k. auto.
Qed.
