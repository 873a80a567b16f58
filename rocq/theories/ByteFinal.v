(** A client that takes the packets from the bytes it reads: the theorems about networks. *)
From Verif Require Import Base StateModel StateSpec StateHarness SerModel WireSpec SerHarness CoreModel CoreHarness ConcModel ConcHarness ConcProofs5 ConcProofs7
  Machine MachSpec MachProofs MachProofs5 MachFinal NetSpec NetFinal InSpec InFinal OutSpec OutProofs4 OutFinal OutSeq OutHist ByteSpec ByteProofs ByteProofs2 ByteProofs5.

Lemma view_srv Bz k B : BJoint k B -> Fed Bz k -> exists N, Joint k N /\ (forall id, b_passed_on id B = passed_on id N) /\ (forall id, b_arrived id B = arrived id N).
Proof.
  intros H F. destruct (bytes_joint _ _ _ H F) as (N & done & HJ & V). exists N. unfold b_passed_on, b_arrived, passed_on, arrived. rewrite (vw_srv _ _ _ _ V). auto.
Qed.
Section Out.
Variables (rt : bool) (n m : nat) (Bz : Z) (k : list tok) (b : mstate).
Hypotheses (R : Run rt false (mkM NotConnected (fresh_session n m) 1 Idle) k b) (F : Fed Bz k).
Lemma bytes_once : one_session k -> no_dups k -> keeps_copies k ->
  (forall k1 k2 B id, k = k1 ++ k2 -> BJoint k1 B -> id_ok id -> exists rest, published id k1 = b_passed_on id B ++ rest /\ (length rest <= 1)%nat) /\
  (forall B id, BJoint k B -> id_ok id -> in_flight (sent (m_ses b)) id = false -> published id k = b_passed_on id B) /\
  (forall k1 x k2 B id, k = k1 ++ x :: k2 -> BJoint k B -> id_ok id -> completes id x ->
     exists a c rest, k1 = a ++ Did (EPkt 112 (be16 id)) :: c /\ Forall (fun x => ~ comes x) c /\ b_passed_on id B = published id a ++ rest).
Proof.
  intros O1 O2 O3. destruct (exactly_once _ _ _ _ _ R O1 O2 O3) as (A1 & A2 & A3). split; [|split].
  - intros k1 k2 B id E HB Hid. assert (F1 : Fed Bz k1) by (subst k; eapply fed_prefix; eauto). destruct (view_srv _ _ _ HB F1) as (N & HJ & -> & _). eauto.
  - intros B id HB. destruct (view_srv _ _ _ HB F) as (N & HJ & -> & _). auto.
  - intros k1 x k2 B id E HB. destruct (view_srv _ _ _ HB F) as (N & HJ & -> & _). eauto.
Qed.
Lemma bytes_least : one_session k -> no_dups k -> keeps_copies k -> undistk k -> b_delivered1 k (m_ses b) /\ b_confirmed1 k.
Proof.
  intros O1 O2 O3 O4. destruct (least_once _ _ _ _ _ R O1 O2 O3 O4) as (A1 & A2 & A3). split; [split|].
  - intros k1 k2 B id E HB Hid. assert (F1 : Fed Bz k1) by (subst k; eapply fed_prefix; eauto). destruct (view_srv _ _ _ HB F1) as (N & HJ & _ & ->). eauto.
  - intros B id HB. destruct (view_srv _ _ _ HB F) as (N & HJ & _ & ->). auto.
  - intros k1 x k2 B id E HB. destruct (view_srv _ _ _ HB F) as (N & HJ & _ & ->). eauto.
Qed.
End Out.
Lemma bytes_in rt cn n m Bz k b : Run rt cn (mkM NotConnected (fresh_session n m) 1 Idle) k b -> Fed Bz k ->
  forall k1 k2 B id, k = k1 ++ k2 -> BLinked k1 B ->
  (exists ms rest, b_messages id B = ms ++ rest /\ (length rest <= 1)%nat /\ handed ms (delivered id k1)) /\ (b_acknowledged id B -> handed (b_messages id B) (delivered id k1)).
Proof.
  intros R F k1 k2 B id E HB. assert (F1 : Fed Bz k1) by (subst k; eapply fed_prefix; eauto). destruct (bytes_linked _ _ _ HB F1) as (N & done & HJ & V).
  pose proof (deliveries _ _ _ _ _ _ R _ _ N id E HJ) as D. unfold messages, acknowledged in D. rewrite (vi_srv _ _ _ _ V) in D. exact D.
Qed.

(** ** Histories *)
Section Hist.
Variables (G : cfg) (n m : nat) (l : list call) (w : world) (s : st) (rs : list status) (w' : world) (s' : st) (t : list ev).
Hypotheses (H1 : legal G n m l w s) (H2 : g_big G = false) (H4 : c_run_calls G l w s = Ret (Some rs, w') s' t) (H5 : careful G true l w s).
Lemma b_history_once : all_fit G false l w s -> exists k, Says t k /\ machine_run n m s s' k /\
  (one_session k -> no_dups k -> keeps_copies k ->
   (forall k1 k2 B id, k = k1 ++ k2 -> BJoint k1 B -> id_ok id -> exists rest, published id k1 = b_passed_on id B ++ rest /\ (length rest <= 1)%nat) /\
   (forall B id, BJoint k B -> id_ok id -> in_flight (sent (session_of n m s')) id = false -> published id k = b_passed_on id B) /\
   (forall k1 x k2 B id, k = k1 ++ x :: k2 -> BJoint k B -> id_ok id -> completes id x ->
      exists a c rest, k1 = a ++ Did (EPkt 112 (be16 id)) :: c /\ Forall (fun x => ~ comes x) c /\ b_passed_on id B = published id a ++ rest)).
Proof.
  intros H3. destruct (history_fed _ _ _ _ _ _ _ _ _ _ _ H1 H2 H3 H5 H4) as (k & S & R & F). exists k. split; auto. split; auto. intros O1 O2 O3. exact (bytes_once _ _ _ _ _ _ R F O1 O2 O3).
Qed.
Lemma b_history_least : all_fit G false l w s -> undisturbed t -> exists k, Says t k /\ machine_run n m s s' k /\
  (one_session k -> no_dups k -> keeps_copies k -> b_delivered1 k (session_of n m s') /\ b_confirmed1 k).
Proof.
  intros H3 U. destruct (history_fed _ _ _ _ _ _ _ _ _ _ _ H1 H2 H3 H5 H4) as (k & S & R & F). exists k. split; auto. split; auto. intros O1 O2 O3. exact (bytes_least _ _ _ _ _ _ R F O1 O2 O3 (says_undisturbed _ _ S U)).
Qed.
Lemma b_history_in : all_fit G true l w s -> exists k, Says t k /\
  Run (x_retr (s_ctx s)) true (mkM NotConnected (fresh_session n m) 1 Idle) k (mkM (x_status (s_ctx s')) (session_of n m s') (x_nextId (s_ctx s')) Idle) /\
  (same_session k -> forall k1 k2 B id, k = k1 ++ k2 -> BLinked k1 B ->
   (exists ms rest, b_messages id B = ms ++ rest /\ (length rest <= 1)%nat /\ handed ms (delivered id k1)) /\
   (b_acknowledged id B -> handed (b_messages id B) (delivered id k1))).
Proof.
  intros H3. destruct (history_fed _ _ _ _ _ _ _ _ _ _ _ H1 H2 H3 H5 H4) as (k & S & R & F). exists k. split; auto. split; auto. intros _. eapply bytes_in; eauto.
Qed.
(** the packets handled on a connection are the first ones the server sent on it *)
Lemma b_history_packets cn : all_fit G cn l w s -> exists k, Says t k /\
  Run (x_retr (s_ctx s)) cn (mkM NotConnected (fresh_session n m) 1 Idle) k (mkM (x_status (s_ctx s')) (session_of n m s') (x_nextId (s_ctx s')) Idle) /\
  forall k1 k2, k = k1 ++ k2 ->
    (forall B, BJoint k1 B -> exists done rest, b_sent B = done ++ rest /\ Forall2 is_item done (titems (recent k1))) /\
    (forall B, BLinked k1 B -> exists done rest, bi_sent B = done ++ rest /\ Forall2 is_item (map wire done) (titems (recent k1))).
Proof.
  intros H3. destruct (history_fed _ _ _ _ _ _ _ _ _ _ _ H1 H2 H3 H5 H4) as (k & S & R & F). exists k. split; auto. split; auto. intros k1 k2 E. assert (F1 : Fed (zlen (x_buf (s_ctx s))) k1) by (subst k; eapply fed_prefix; eauto). split; intros B HB.
  - destruct (bytes_joint _ _ _ HB F1) as (N & done & HJ & V). exists done, (n_down N). split; [exact (vw_sent _ _ _ _ V)|exact (vw_items _ _ _ _ V)].
  - destruct (bytes_linked _ _ _ HB F1) as (N & done & HJ & V). exists done, (i_down N). split; [exact (vi_sent _ _ _ _ V)|exact (vi_items _ _ _ _ V)].
Qed.
End Hist.

(** ** One thread *)
Lemma careful_alone G : forall l w s ok, w_held w = false -> ConcHarness.still w -> careful1 G ok l s -> careful (nest G) ok l w s.
Proof.
  induction l as [|c l IH]; intros w s ok Hw Hs H; [exact I|]. cbn [careful1 careful] in *. destruct H as (Ha & H). split; [exact Ha|].
  pose proof (sim_call (nest G) c s w Hw (fun _ => Hs)) as S. destruct (c_run_call (nest G) c w s) as [[[r|] w1] s1 t1| |]; auto.
  destruct S as (E & Hw1 & Hs1). assert (E' : run_call G c s = Ret r s1 t1) by (destruct G; exact E). rewrite E' in H. apply IH; auto.
Qed.
Lemma b_alone_least G n m l s rs s' t : opened G n m s -> 3 <= g_maxvec G -> cbs_sound (s_env s) -> Forall call_sound l -> g_big G = false ->
  all_fit G false l (mkW false []) s -> careful1 G true l s -> run_calls G l s = Ret rs s' t ->
  exists k, Says t k /\ machine_run n m s s' k /\ (one_session k -> no_dups k -> keeps_copies k -> b_delivered1 k (session_of n m s') /\ b_confirmed1 k).
Proof.
  intros H1 H2 H3 H4 H5 H6 H7 E. destruct (opened_fresh _ _ _ _ _ _ _ _ H1 E) as (_ & U). destruct (alone_nest (nest G) l (mkW false []) s eq_refl eq_refl (Forall_nil _)) as (w' & E2).
  unfold bind in E2. rewrite nest_same, E in E2. apply (b_history_least (nest G) n m l (mkW false []) s rs w' s' t); auto.
  - split; [destruct G; exact H1|]. split; [exact H2|]. split; [exact H3|]. split; [exact H4|]. split; [reflexivity|constructor].
  - rewrite E2. cbn. now rewrite app_nil_r.
  - apply careful_alone; auto. constructor.
Qed.
