(** A dead server is noticed. *)
From Verif Require Import Base StateModel StateSpec StateHarness StateProofs StateProofs2 SerModel WireSpec SerHarness
  CoreModel CoreSpec CoreHarness CoreProofs CoreProofs2 CoreProofs3 CoreProofs6 CoreProofs9 CoreProofs12 CoreProofs13 CoreProofs16 CoreProofs19 CoreProofs20 CoreProofs21 CoreProofs22 CoreProofs23 CoreProofs24
  CoreFinal CoreFinal2 LifeSpec.
From Coq Require Import Sorting.Sorted.

(** ** What calls other than MQTT_Ping leave alone *)
Definition still (s s' : st) (t : list ev) : Prop :=
  x_waiting (s_ctx s') = x_waiting (s_ctx s) /\ x_pingTime (s_ctx s') = x_pingTime (s_ctx s) /\ x_lastRx (s_ctx s') = x_lastRx (s_ctx s).
Section Life.
Variables (G : cfg) (n m : nat).
Notation K := (keeps still).
Lemma l_refl s : still s s []. Proof. repeat split. Qed.
Lemma l_trans a b c t u : still a b t -> still b c u -> still a c (t ++ u).
Proof. unfold still. intros (A1 & A2 & A3) (B1 & B2 & B3). repeat split; congruence. Qed.
Lemma l_bind {A B} (mo : Mo A) (k : A -> Mo B) : K mo -> (forall a, K (k a)) -> K (bind mo k).
Proof. apply k_bind. apply l_trans. Qed.
Lemma l_on_recs {A} (f : recs -> Base.R (A * recs)) : K (on_recs f).
Proof. intros s a s' t H. apply on_recs_inv in H. destruct H as (c & _ & -> & ->). repeat split. Qed.
Lemma l_modc f : (forall c, x_waiting (f c) = x_waiting c /\ x_pingTime (f c) = x_pingTime c /\ x_lastRx (f c) = x_lastRx c) -> K (modc f).
Proof. intros Hf s [] s' t H. apply modc_inv in H. destruct H as (-> & ->). apply Hf. Qed.
Lemma l_emit e : K (emit e).
Proof. intros s [] s' t H. apply emit_inv in H. destruct H as (-> & ->). repeat split. Qed.
Lemma l_getTime : K getTime.
Proof. intros s a s' t H. apply getTime_inv in H. destruct H as (x & r & E & _ & -> & ->). repeat split. Qed.
Lemma l_tsend bs : K (tsend bs).
Proof. intros s a s' t H. apply tsend_inv in H. destruct H as (k & rest & E & -> & H). repeat split. Qed.
Lemma l_store id vs : K (store_publish id vs).
Proof. intros s a s' t H. unfold store_publish in H. cbv zeta in H. injection H as _ <- <-. repeat split. Qed.
Ltac lp := repeat first
  [ assumption
  | apply k_ret, l_refl | apply k_lift, l_refl | apply k_massert, l_refl | apply k_getc, l_refl | apply k_gete, l_refl
  | apply l_getTime | apply l_tsend | apply k_undef | apply k_stuck | apply l_on_recs | apply l_store
  | apply l_modc; intro; unfold transport_broke; repeat match goal with |- context [if ?b then _ else _] => destruct b end; repeat split
  | apply l_emit
  | apply l_bind; [|intros ?]
  | match goal with
    | |- keeps _ (if ?b then _ else _) => destruct b
    | |- keeps _ (match ?x with _ => _ end) => destruct x
    end ].
Lemma l_sendBuffer bs : K (sendBuffer G bs).
Proof.
  assert (L : forall fuel r b st0 sent, K (sendb_loop G fuel r b st0 sent)).
  { induction fuel as [|fuel IH]; intros; cbn [sendb_loop]; [apply k_stuck|]. lp; auto. }
  unfold sendBuffer. lp. apply L.
Qed.
Lemma l_sendv vs : K (sendMessageVector G vs).
Proof.
  assert (L : forall fuel r b st0 sent, K (sendv_loop G fuel r b st0 sent)).
  { induction fuel as [|fuel IH]; intros; cbn [sendv_loop]; [apply k_stuck|]. lp; auto. }
  unfold sendMessageVector. lp. apply L.
Qed.
Opaque sendBuffer sendMessageVector.
Ltac lp2 := repeat first [progress lp | apply l_sendBuffer | apply l_sendv].
Lemma l_op o : o <> OPing -> K (run_op G o).
Proof.
  assert (L1 : forall fuel l vs, K (sub_send_loop G fuel l vs)).
  { induction fuel as [|fuel IH]; intros; cbn [sub_send_loop]; [apply k_stuck|]. lp2; auto. }
  assert (L2 : forall fuel l vs, K (unsub_send_loop G fuel l vs)).
  { induction fuel as [|fuel IH]; intros; cbn [unsub_send_loop]; [apply k_stuck|]. lp2; auto. }
  intro Ho. destruct o; cbn [run_op].
  - unfold publish, sendPublishWithoutCopy. lp2.
  - unfold subscribe, validateSubUnsub, sendSubscribeWithoutCopy. lp2; auto.
  - unfold unsubscribe, validateSubUnsub, sendUnsubscribeWithoutCopy. lp2; auto.
  - congruence.
  - unfold disconnect. lp2.
  - unfold getPacketId. lp2.
  - unfold cancel. lp2.
  - lp2.
Qed.

(** ** A pass in which nothing arrives *)
Lemma still_rx s s1 : only_rx s s1 -> still s s1 [].
Proof. intros (b & i & inp & rv & ts & ->). repeat split. Qed.
Lemma still_broken s : still s (broken s) [].
Proof. repeat split. Qed.
Lemma still_next mk s r s' t : next_handled G n m mk s r s' t -> handled t = [] -> still s s' t.
Proof.
  intros H Ht. destruct H; try (apply l_refl).
  - match goal with H : only_rx s s1 |- _ => apply still_rx in H; destruct H as (A1 & A2 & A3) end.
    subst s'. destruct err; repeat split; assumption.
  - discriminate Ht.
Qed.
Lemma handled_app t u : handled (t ++ u) = handled t ++ handled u.
Proof. unfold handled. apply flat_map_app. Qed.
Lemma still_receive s r s' t : loop_handled G n m false s r s' t -> handled t = [] -> still s s' t.
Proof.
  intros H Ht. destruct H as [s1 H|bs s1 k s2 t2 res s' t3 H1 _ _ _ _ H2 H3].
  - apply still_rx in H. destruct H as (A1 & A2 & A3). repeat split; assumption.
  - cbn [andb] in H2. destruct H2 as (-> & -> & ->). apply still_rx in H1. destruct H1 as (A1 & A2 & A3).
    destruct H3 as [(C & _)|(_ & H3)]; [congruence|]. apply still_next in H3; [|exact Ht]. destruct H3 as (B1 & B2 & B3). repeat split; congruence.
Qed.
(** what a pass without input did *)
Definition pass_did (s : st) (r : status) (s' : st) : Prop :=
  alarm r \/ exists now l, e_times (s_env s) = now :: l /\
    (x_waiting (s_ctx s) = true /\ x_waiting (s_ctx s') = true /\ x_pingTime (s_ctx s') = x_pingTime (s_ctx s) /\
       since (now mod 4294967296) (x_pingTime (s_ctx s)) <= g_pingto G \/
     x_waiting (s_ctx s) = false /\ x_waiting (s_ctx s') = false /\ ping_due G (s_ctx s) (now mod 4294967296) = false \/
     x_waiting (s_ctx s) = false /\ x_waiting (s_ctx s') = true).
Lemma pass_idle s r s' t : Begun G n m s -> run_call G CProcess s = Ret r s' t -> ins t = [] -> handled t = [] ->
  pass_did s r s' /\ x_lastRx (s_ctx s') = x_lastRx (s_ctx s).
Proof.
  intros Hb H Hi Ht. apply process_outcome with (n := n) (m := m) in H; [|exact Hb]. set (s0 := mkSt _ _) in H.
  assert (E0 : still s s0 []) by (repeat split). assert (T0 : e_times (s_env s0) = e_times (s_env s)) by reflexivity.
  assert (P0 : forall now, ping_due G (s_ctx s0) now = ping_due G (s_ctx s) now) by reflexivity.
  revert H E0 T0 P0. generalize s0. clear s0. intros s0 H (A1 & A2 & A3) T0 P0.
  destruct H as [s1 H|bs s1 k s2 t2 res s' t3 H1 Et Hin _ _ H2 H3].
  { split; [left; unfold alarm; cbn; auto|]. apply still_rx in H. destruct H as (_ & _ & B3). cbn. congruence. }
  assert (bs = []) as -> by (destruct bs; [reflexivity|discriminate Hi]). cbn [andb zlen length Z.of_nat Z.eqb] in H2.
  assert (W : still s0 s1 []) by (now apply still_rx). assert (P1 : forall now, ping_due G (s_ctx s1) now = ping_due G (s_ctx s) now).
  { intro now. rewrite <- P0. destruct H1 as (b & i & inp & rv & ts & ->). reflexivity. }
  destruct W as (B1 & B2 & B3). destruct H2 as (now & s1' & (x & l & Ex & -> & ->) & H2). cbn [s_ctx] in H2.
  change (handled (EIn [] :: t2 ++ t3)) with (handled (t2 ++ t3)) in Ht. rewrite handled_app in Ht. apply app_eq_nil in Ht. destruct Ht as (_ & Ht).
  destruct (x_waiting (s_ctx s1)) eqn:Ew.
  - destruct H2 as (-> & -> & ->). destruct (g_pingto G <? _) eqn:El.
    + destruct H3 as [(_ & -> & -> & _)|(C & _)]; [|discriminate]. split; [left; unfold alarm; cbn; auto|]. cbn. congruence.
    + destruct H3 as [(C & _)|(_ & H3)]; [congruence|]. apply still_next in H3; [|exact Ht]. destruct H3 as (C1 & C2 & C3). cbn [s_ctx] in *.
      split; [|congruence]. right. exists x, l. split; [congruence|]. left. apply Z.ltb_ge in El. rewrite B2, A2 in El. repeat split; try congruence; exact El.
  - rewrite P1 in H2. destruct (ping_due G (s_ctx s) _) eqn:Ed.
    + assert (Q : x_lastRx (s_ctx s2) = x_lastRx (s_ctx s) /\ (k = Success -> x_waiting (s_ctx s2) = true) /\ (k <> Success -> alarm k)).
      { destruct H2 as [(Hc & -> & -> & ->)|(Hc & _ & _ & (sa & p & w & (xst & lt & ctl & rr & ts & sn & ->) & E2) & _ & _ & H2)].
        - cbn [s_ctx]. split; [congruence|]. split.
          + unfold not_connected_result. destruct (x_status _); discriminate.
          + intros _. unfold not_connected_result, alarm. destruct (x_status _); cbn; auto 10.
        - split; [rewrite E2; cbn; congruence|]. destruct H2 as [(_ & -> & _)|(_ & _ & -> & Hw & _)].
          + split; [discriminate|]. intros _. unfold alarm. cbn. auto 10.
          + split; [intros _; exact Hw|congruence]. }
      destruct Q as (Q1 & Q2 & Q3). destruct H3 as [(Hk & -> & -> & _)|(Hk & H3)].
      * split; [left; auto|exact Q1].
      * apply still_next in H3; [|exact Ht]. destruct H3 as (C1 & C2 & C3). split; [|congruence]. right. exists x, l. split; [congruence|].
        right. right. split; [congruence|]. rewrite C1. auto.
    + destruct H2 as (-> & -> & ->). destruct H3 as [(C & _)|(_ & H3)]; [congruence|]. apply still_next in H3; [|exact Ht].
      destruct H3 as (C1 & C2 & C3). cbn [s_ctx] in *. split; [|congruence]. right. exists x, l. split; [congruence|].
      right. left. repeat split; try congruence; exact Ed.
Qed.
(** ** Several passes *)
Definition step_did (c : call) (s : st) (r : status) (s' : st) : Prop :=
  match c with
  | CProcess => pass_did s r s'
  | _ => x_waiting (s_ctx s') = x_waiting (s_ctx s) /\ x_pingTime (s_ctx s') = x_pingTime (s_ctx s)
  end /\ x_lastRx (s_ctx s') = x_lastRx (s_ctx s).
Lemma call_idle c s r s' t : Begun G n m s -> leaves_ping c = true -> run_call G c s = Ret r s' t -> ins t = [] -> handled t = [] -> step_did c s r s'.
Proof.
  intros Hb Hc H Hi Ht. destruct c as [o|ci w tmo| |]; [|discriminate Hc| |].
  - assert (o <> OPing) by (intros ->; discriminate). pose proof (l_op o H0 _ _ _ _ H) as (A1 & A2 & A3). repeat split; assumption.
  - destruct (pass_idle s r s' t Hb H Hi Ht) as (A & B). split; assumption.
  - apply receive_outcome with (n := n) (m := m) in H; [|exact Hb]. apply still_receive in H; [|exact Ht]. destruct H as (A1 & A2 & A3). repeat split; assumption.
Qed.
Lemma call_used c s r s' t : run_call G c s = Ret r s' t -> exists used, e_times (s_env s) = used ++ e_times (s_env s').
Proof. intro H. apply t_call in H. destruct H as (u & E & _). eauto. Qed.
Lemma call_pinged s r s' t : Begun G n m s -> run_call G CProcess s = Ret r s' t -> x_waiting (s_ctx s) = false -> x_waiting (s_ctx s') = true ->
  exists used x, e_times (s_env s) = used ++ e_times (s_env s') /\ In x used /\ x_pingTime (s_ctx s') = x mod 4294967296.
Proof.
  intros Hb H H0 H1. apply wait_call with (n := n) (m := m) in H; [|exact Hb]. destruct H as (u & E & [(A & _)|[(_ & _ & x & Hx & Ex)|(A & _)]]); [congruence| |congruence].
  exists u, x. auto.
Qed.
(** the readings of the passes are readings of the clock *)
Lemma pass_in l : forall s rs s' t, Begun G n m s -> run_calls G l s = Ret rs s' t -> forallb leaves_ping l = true -> ins t = [] -> handled t = [] ->
  ~ Exists alarm (pass_results l rs) -> forall x, In x (pass_times G l s) -> In x (e_times (s_env s)).
Proof.
  induction l as [|c l IH]; intros s rs s' t Hb H Hl Hi Ht Ha x Hx; [destruct Hx|]. cbn [run_calls] in H.
  apply bind_inv in H. destruct H as (r & s1 & t1 & t2 & H1 & H & ->). apply bind_inv in H. destruct H as (rs1 & s2 & t3 & t4 & H2 & H & ->).
  apply ret_inv in H. destruct H as (-> & -> & ->). rewrite app_nil_r in *. unfold ins in Hi. rewrite flat_map_app in Hi. apply app_eq_nil in Hi. destruct Hi as (Hi1 & Hi2).
  rewrite handled_app in Ht. apply app_eq_nil in Ht. destruct Ht as (Ht1 & Ht2). cbn [forallb] in Hl. apply andb_true_iff in Hl. destruct Hl as (Hc & Hl).
  cbn [pass_times] in Hx. rewrite H1 in Hx. cbn [pass_results] in Ha.
  assert (Hr : In x (pass_times G l s1) -> In x (e_times (s_env s))).
  { intro Hin. destruct (call_used _ _ _ _ _ H1) as (u & ->). apply in_app_iff. right.
    eapply IH; [eapply begun_call; eauto|exact H2|exact Hl|exact Hi2|exact Ht2| |exact Hin].
    intro C. apply Ha. apply Exists_app. now right. }
  apply in_app_iff in Hx. destruct Hx as [Hx|Hx]; [|auto]. destruct c; try destruct Hx as [].
  2: contradiction. subst x.
  destruct (pass_idle s r s1 t1 Hb H1 Hi1 Ht1) as ([C|(now & tl & E & _)] & _); [exfalso; apply Ha; now left|]. rewrite E. now left.
Qed.
Lemma sorted_le (l1 l2 : list Z) x y : Sorted Z.le (l1 ++ l2) -> In x l1 -> In y l2 -> x <= y.
Proof.
  intros H Hx Hy. apply Sorted_StronglySorted in H; [|intros a b c; lia]. induction l1 as [|a l1 IH]; [destruct Hx|].
  cbn in H. inversion H as [|? ? H1 H2]; subst. destruct Hx as [->|Hx]; [|auto]. rewrite Forall_forall in H2. apply H2. apply in_app_iff. auto.
Qed.
Lemma sorted_suffix (l1 l2 : list Z) : Sorted Z.le (l1 ++ l2) -> Sorted Z.le l2.
Proof. induction l1 as [|a l1 IH]; intro H; [exact H|]. cbn in H. inversion H; subst; auto. Qed.
Lemma since_near x P a : a mod 4294967296 = P mod 4294967296 -> 0 <= x - P < 4294967296 -> since (x mod 4294967296) a = x - P.
Proof. intros E H. unfold since. rewrite Zminus_mod_idemp_l, Zminus_mod, E, <- Zminus_mod. apply Z.mod_small. exact H. Qed.
Lemma since_exact x a : exists P, a mod 4294967296 = P mod 4294967296 /\ x < P + 4294967296 /\ P <= x.
Proof.
  exists (x - since x a). unfold since. pose proof (Z.mod_pos_bound (x - a) 4294967296). split; [|lia].
  rewrite Zminus_mod_idemp_r. f_equal. lia.
Qed.
(** after a PINGREQ of time P *)
Lemma waiting_ends D P : 0 <= D -> 0 <= g_pingto G -> g_pingto G + D < 4294967296 -> forall l s rs s' t, Begun G n m s -> run_calls G l s = Ret rs s' t ->
  forallb leaves_ping l = true -> ins t = [] -> handled t = [] -> ~ Exists alarm (pass_results l rs) ->
  x_waiting (s_ctx s) = true -> x_pingTime (s_ctx s) mod 4294967296 = P mod 4294967296 ->
  (forall y ys, pass_times G l s = y :: ys -> y < P + 4294967296 /\ spaced D y ys) -> Forall (Z.le P) (pass_times G l s) ->
  Forall (fun x => x <= P + g_pingto G) (pass_times G l s).
Proof.
  intros HD Hp Hw. induction l as [|c l IH]; intros s rs s' t Hb H Hl Hi Ht Ha Ew Ep Hy Hge; [constructor|]. cbn [run_calls] in H.
  apply bind_inv in H. destruct H as (r & s1 & t1 & t2 & H1 & H & ->). apply bind_inv in H. destruct H as (rs1 & s2 & t3 & t4 & H2 & H & ->).
  apply ret_inv in H. destruct H as (-> & -> & ->). rewrite app_nil_r in *. unfold ins in Hi. rewrite flat_map_app in Hi. apply app_eq_nil in Hi. destruct Hi as (Hi1 & Hi2).
  rewrite handled_app in Ht. apply app_eq_nil in Ht. destruct Ht as (Ht1 & Ht2). cbn [forallb] in Hl. apply andb_true_iff in Hl. destruct Hl as (Hc & Hl).
  cbn [pass_times pass_results] in *. rewrite H1 in *. pose proof (call_idle _ _ _ _ _ Hb Hc H1 Hi1 Ht1) as (S1 & S2).
  pose proof (begun_call _ _ _ _ _ _ _ _ Hb H1) as Hb1.
  assert (Ha2 : ~ Exists alarm (pass_results l rs1)) by (intro C; apply Ha; apply Exists_app; now right).
  destruct c as [o|ci w tmo| |].
  - destruct S1 as (S1 & S3). cbn [app] in *. eapply IH; eauto; congruence.
  - discriminate Hc.
  - cbn [app] in *. destruct S1 as [C|(now & tl & E & S1)]; [exfalso; apply Ha; now left|]. rewrite E in *. cbn [hd] in *.
    destruct (Hy _ _ eq_refl) as (Hy1 & Hy2). inversion Hge as [|? ? Hg1 Hg2]; subst.
    destruct S1 as [(_ & W1 & W2 & W3)|[(C & _)|(C & _)]]; [|congruence|congruence]. rewrite (since_near _ P) in W3 by (exact Ep || lia).
    constructor; [lia|]. eapply IH; eauto; [congruence|]. intros y ys Ey. rewrite Ey in Hy2. cbn [spaced] in Hy2. split; [lia|tauto].
  - destruct S1 as (S1 & S3). cbn [app] in *. eapply IH; eauto; congruence.
Qed.
(** nothing received since T *)
Lemma silence_ends D T B : 0 <= D -> 0 < g_rx G -> 0 <= g_pingto G -> Z.max (g_rx G) (g_pingto G) + D < 4294967296 -> T + g_rx G + 2 * D + g_pingto G <= B ->
  forall l s rs s' t, Begun G n m s -> run_calls G l s = Ret rs s' t ->
  forallb leaves_ping l = true -> ins t = [] -> handled t = [] -> ~ Exists alarm (pass_results l rs) ->
  x_waiting (s_ctx s) = false -> x_lastRx (s_ctx s) mod 4294967296 = T mod 4294967296 -> Sorted Z.le (e_times (s_env s)) ->
  (forall y ys, pass_times G l s = y :: ys -> y < T + 4294967296 /\ y + D + g_pingto G <= B /\ spaced D y ys) -> Forall (Z.le T) (pass_times G l s) ->
  Forall (fun x => x <= B) (pass_times G l s).
Proof.
  intros HD Hrx Hp Hw HB. induction l as [|c l IH]; intros s rs s' t Hb H Hl Hi Ht Ha Ew Er Hs Hy Hge; [constructor|]. cbn [run_calls] in H.
  apply bind_inv in H. destruct H as (r & s1 & t1 & t2 & H1 & H & ->). apply bind_inv in H. destruct H as (rs1 & s2 & t3 & t4 & H2 & H & ->).
  apply ret_inv in H. destruct H as (-> & -> & ->). rewrite app_nil_r in *. unfold ins in Hi. rewrite flat_map_app in Hi. apply app_eq_nil in Hi. destruct Hi as (Hi1 & Hi2).
  rewrite handled_app in Ht. apply app_eq_nil in Ht. destruct Ht as (Ht1 & Ht2). cbn [forallb] in Hl. apply andb_true_iff in Hl. destruct Hl as (Hc & Hl).
  cbn [pass_times pass_results] in *. rewrite H1 in *. pose proof (call_idle _ _ _ _ _ Hb Hc H1 Hi1 Ht1) as (S1 & S2).
  pose proof (begun_call _ _ _ _ _ _ _ _ Hb H1) as Hb1.
  assert (Ha2 : ~ Exists alarm (pass_results l rs1)) by (intro C; apply Ha; apply Exists_app; now right).
  assert (Hs1 : Sorted Z.le (e_times (s_env s1))) by (destruct (call_used _ _ _ _ _ H1) as (u & E); rewrite E in Hs; now apply sorted_suffix in Hs).
  destruct c as [o|ci w tmo| |].
  - destruct S1 as (S1 & S3). cbn [app] in *. eapply IH; eauto; congruence.
  - discriminate Hc.
  - cbn [app] in *. destruct S1 as [C|(now & tl & E & S1)]; [exfalso; apply Ha; now left|]. assert (Eh : hd 0 (e_times (s_env s)) = now) by (now rewrite E). rewrite Eh in *.
    destruct (Hy _ _ eq_refl) as (Hy1 & Hy0 & Hy2). inversion Hge as [|? ? Hg1 Hg2]; subst x l0.
    constructor; [lia|]. destruct S1 as [(C & _)|[(_ & W1 & W2)|(_ & W1)]]; [congruence| |].
    + unfold ping_due in W2. cbv zeta in W2. apply orb_false_iff in W2. destruct W2 as (_ & W2). rewrite (since_near _ T) in W2 by (exact Er || lia).
      assert (now - T < g_rx G) by (apply andb_false_iff in W2; destruct W2 as [W2|W2]; [apply negb_false_iff, Z.eqb_eq in W2|apply Z.leb_gt in W2]; lia).
      eapply IH; eauto; [congruence|]. intros y ys Ey. rewrite Ey in Hy2. cbn [spaced] in Hy2. split; [lia|]. split; [lia|tauto].
    + destruct (call_pinged _ _ _ _ Hb H1 Ew W1) as (u & P & Eu & HP & EP).
      assert (Hin : forall x, In x (pass_times G l s1) -> In x (e_times (s_env s1))) by (eapply pass_in; eauto).
      assert (HPn : now <= P).
      { destruct u as [|u0 u]; [destruct HP|]. rewrite E in Eu. injection Eu as <- Eu. destruct HP as [->|HP]; [lia|].
        rewrite E, Eu in Hs. apply Sorted_StronglySorted in Hs; [|intros a b c; lia]. inversion Hs as [|? ? _ F]; subst. rewrite Forall_forall in F. apply F, in_app_iff. auto. }
      assert (HPy : forall x, In x (pass_times G l s1) -> P <= x) by (intros x Hx; rewrite Eu in Hs; eapply sorted_le; eauto).
      destruct (pass_times G l s1) as [|y ys] eqn:Ey; [constructor|]. cbn [spaced] in Hy2.
      assert (P <= y) by (apply HPy; now left).
      rewrite <- Ey. eapply Forall_impl; [|eapply (waiting_ends D P); eauto; try lia]; [cbv beta; intros; lia| |].
      * intros y0 ys0 E0. rewrite Ey in E0. injection E0 as <- <-. split; [lia|tauto].
      * rewrite Ey. apply Forall_forall. exact HPy.
  - destruct S1 as (S1 & S3). cbn [app] in *. eapply IH; eauto; congruence.
Qed.
Lemma pass_sorted l : forall s rs s' t, Begun G n m s -> run_calls G l s = Ret rs s' t -> forallb leaves_ping l = true -> ins t = [] -> handled t = [] ->
  ~ Exists alarm (pass_results l rs) -> Sorted Z.le (e_times (s_env s)) -> forall x xs, pass_times G l s = x :: xs -> Forall (Z.le x) xs.
Proof.
  induction l as [|c l IH]; intros s rs s' t Hb H Hl Hi Ht Ha Hs x xs Hx; [discriminate|]. cbn [run_calls] in H.
  apply bind_inv in H. destruct H as (r & s1 & t1 & t2 & H1 & H & ->). apply bind_inv in H. destruct H as (rs1 & s2 & t3 & t4 & H2 & H & ->).
  apply ret_inv in H. destruct H as (-> & -> & ->). rewrite app_nil_r in *. unfold ins in Hi. rewrite flat_map_app in Hi. apply app_eq_nil in Hi. destruct Hi as (Hi1 & Hi2).
  rewrite handled_app in Ht. apply app_eq_nil in Ht. destruct Ht as (Ht1 & Ht2). cbn [forallb] in Hl. apply andb_true_iff in Hl. destruct Hl as (Hc & Hl).
  cbn [pass_times pass_results] in *. rewrite H1 in *. pose proof (begun_call _ _ _ _ _ _ _ _ Hb H1) as Hb1.
  assert (Ha2 : ~ Exists alarm (pass_results l rs1)) by (intro C; apply Ha; apply Exists_app; now right).
  destruct (call_used _ _ _ _ _ H1) as (u & E).
  assert (Hs1 : Sorted Z.le (e_times (s_env s1))) by (rewrite E in Hs; now apply sorted_suffix in Hs).
  destruct c as [o|ci w tmo| |]; cbn [app] in Hx; try (eapply IH; eauto; fail).
  injection Hx as <- <-. apply Forall_forall. intros y Hy.
  assert (Hin : In y (e_times (s_env s1))) by (eapply pass_in; eauto).
  destruct (pass_idle s r s1 t1 Hb H1 Hi1 Ht1) as ([C|(now & tl & En & _)] & _); [exfalso; apply Ha; now left|].
  assert (In y (now :: tl)) by (rewrite <- En, E; apply in_app_iff; auto). rewrite En. cbn [hd].
  destruct H as [->|H]; [lia|]. rewrite En in Hs. apply Sorted_StronglySorted in Hs; [|intros a b c; lia]. inversion Hs as [|? ? _ F]; subst. rewrite Forall_forall in F. auto.
Qed.
Lemma dead_noticed D l s rs s' t first rest : Begun G n m s -> run_calls G l s = Ret rs s' t -> forallb leaves_ping l = true -> ins t = [] -> handled t = [] ->
  0 <= D -> 0 < g_rx G -> 0 <= g_pingto G -> Z.max (g_rx G) (g_pingto G) + D < 4294967296 -> Sorted Z.le (e_times (s_env s)) ->
  pass_times G l s = first :: rest -> spaced D first rest -> Exists (fun x => first + g_rx G + g_pingto G + 2 * D < x) rest -> Exists alarm (pass_results l rs).
Proof.
  intros Hb H Hl Hi Ht HD Hrx Hp Hw Hs Ef Hsp Hex.
  assert (Da : Exists alarm (pass_results l rs) \/ ~ Exists alarm (pass_results l rs)).
  { clear. induction (pass_results l rs) as [|r q [IH|IH]]; [right; intro C; inversion C|left; now right|].
    assert (alarm r \/ ~ alarm r) as [C|C] by (unfold alarm; cbn; destruct r; (left; intuition congruence) || (right; intuition congruence)).
    - left. now left. - right. intro E. inversion E; auto. }
  destruct Da as [C|Ha]; [exact C|]. exfalso.
  pose proof (pass_sorted l s rs s' t Hb H Hl Hi Ht Ha Hs first rest Ef) as Hso.
  set (B := first + g_rx G + g_pingto G + 2 * D) in *.
  assert (F : Forall (fun x => x <= B) (pass_times G l s)).
  2:{ rewrite Ef in F. inversion F as [|? ? _ F2]; subst. apply Exists_exists in Hex. destruct Hex as (x & Hx & Hlt). rewrite Forall_forall in F2. apply F2 in Hx. lia. }
  destruct (x_waiting (s_ctx s)) eqn:Ew.
  - destruct (since_exact first (x_pingTime (s_ctx s))) as (P & EP & HP1 & HP2).
    eapply Forall_impl; [|eapply (waiting_ends D P); eauto; try lia]; [cbv beta; unfold B; intros; lia| |].
    + intros y ys E. rewrite Ef in E. injection E as <- <-. auto.
    + rewrite Ef. constructor; [lia|]. eapply Forall_impl; [|exact Hso]. cbv beta. intros. lia.
  - destruct (since_exact first (x_lastRx (s_ctx s))) as (T & ET & HT1 & HT2).
    eapply (silence_ends D T B); eauto; try (unfold B; lia).
    + intros y ys E. rewrite Ef in E. injection E as <- <-. split; [exact HT1|]. split; [unfold B; lia|exact Hsp].
    + rewrite Ef. constructor; [lia|]. eapply Forall_impl; [|exact Hso]. cbv beta. intros. lia.
Qed.

(** ** A time-out means silence *)
Lemma pingresp_clears s r s' t : Begun G n m s -> run_call G CProcess s = Ret r s' t -> In (EPkt 208 []) t -> x_waiting (s_ctx s') = false.
Proof.
  intros Hb H Hi. apply process_outcome with (n := n) (m := m) in H; [|exact Hb].
  eapply loop_packet in H; [|exact Hi]. destruct H as (u & v & s2 & s3 & _ & _ & H & _ & (b & i & Hs) & _).
  assert (Q : r = Success /\ x_waiting (s_ctx s3) = false).
  { inversion H; subst; try discriminate; try congruence.
    - destruct k; discriminate.
    - auto.
    - exfalso. match goal with H : ~ In _ _ |- _ => apply H end. cbn. auto 10. }
  destruct Q as (-> & Q). cbn [status_beq] in Hs. destruct Hs as (x & l & _ & ->). exact Q.
Qed.
Lemma run_calls_split l1 : forall l2 s rs s' t, run_calls G (l1 ++ l2) s = Ret rs s' t ->
  exists r1 r2 s1 t1 t2, rs = r1 ++ r2 /\ run_calls G l1 s = Ret r1 s1 t1 /\ run_calls G l2 s1 = Ret r2 s' t2 /\ t = t1 ++ t2.
Proof.
  induction l1 as [|c l1 IH]; intros l2 s rs s' t H.
  - exists [], rs, s, [], t. auto.
  - cbn [app run_calls] in H. apply bind_inv in H. destruct H as (r & s1 & t1 & t2 & Hc & H & ->). apply bind_inv in H. destruct H as (rs3 & s3 & t5 & t6 & H3 & H & ->).
    apply ret_inv in H. destruct H as (-> & -> & ->). apply IH in H3. destruct H3 as (r1 & r2 & s2 & ta & tb & -> & H1 & H2 & ->).
    exists (r :: r1), r2, s2, (t1 ++ ta), tb. split; [reflexivity|]. split; [|split; [exact H2|now rewrite app_nil_r, app_assoc]].
    cbn [run_calls]. unfold bind, ret. rewrite Hc, H1. now rewrite app_nil_r.
Qed.
Lemma pingresp_app l1 : forall l2 s rs s' t, run_calls G l1 s = Ret rs s' t -> pingresp_handled G (l1 ++ l2) s -> pingresp_handled G l1 s \/ pingresp_handled G l2 s'.
Proof.
  induction l1 as [|c l1 IH]; intros l2 s rs s' t H C.
  - apply ret_inv in H. destruct H as (_ & -> & _). now right.
  - cbn [run_calls] in H. apply bind_inv in H. destruct H as (r & s1 & t1 & t2 & Hc & H & ->). apply bind_inv in H. destruct H as (rs3 & s3 & t5 & t6 & H3 & H & ->).
    apply ret_inv in H. destruct H as (-> & -> & ->). cbn [app pingresp_handled] in *. rewrite Hc in *. destruct C as [C|C]; [auto|].
    destruct (IH _ _ _ _ _ H3 C); auto.
Qed.
Lemma timeout_silence l : forall s0 rs s t, opened G n m s0 -> run_calls G l s0 = Ret rs s t -> x_waiting (s_ctx s) = true ->
  exists l1 c l2 rs1 s1 t1 r s2 t2 rs2 t3 used x,
    l = l1 ++ c :: l2 /\ run_calls G l1 s0 = Ret rs1 s1 t1 /\ run_call G c s1 = Ret r s2 t2 /\ run_calls G l2 s2 = Ret rs2 s t3 /\
    (exists a b, outs t2 = a ++ pingreq_packet ++ b) /\ e_times (s_env s1) = used ++ e_times (s_env s2) /\ In x used /\
    x_pingTime (s_ctx s) = x mod 4294967296 /\ ~ pingresp_handled G l2 s2.
Proof.
  induction l as [|c l IH] using rev_ind; intros s0 rs s t Ho H Hw.
  - cbn [run_calls] in H. apply ret_inv in H. destruct H as (_ & -> & _). destruct Ho as (buf & retr & e & _ & _ & _ & _ & _ & ->). discriminate Hw.
  - destruct (run_calls_split l [c] s0 rs s t H) as (r1 & r2 & s1 & t1 & t2 & -> & H1 & H2 & ->).
    cbn [run_calls] in H2. apply bind_inv in H2. destruct H2 as (r & s2 & t3 & t4 & Hc & H2 & ->). apply bind_inv in H2. destruct H2 as (rs3 & s3 & t5 & t6 & H3 & H2 & ->).
    apply ret_inv in H3. destruct H3 as (-> & -> & ->). apply ret_inv in H2. destruct H2 as (-> & -> & ->).
    assert (Hb : Begun G n m s1) by (exists s0, l, r1, t1; auto).
    destruct (wait_call _ _ _ _ _ _ _ _ Hb Hc) as (used & Eu & [(A1 & A2)|[(A1 & A2 & x & Hx & Ex)|(A1 & _)]]); [| |congruence].
    + rewrite A1 in Hw. destruct (IH s0 r1 s1 t1 Ho H1 Hw) as (l1 & c0 & l2 & rs1 & sa & ta & ra & sb & tb & rs2 & tc & us & x & -> & B1 & B2 & B3 & B4 & B5 & B6 & B7 & B8).
      exists l1, c0, (l2 ++ [c]), rs1, sa, ta, ra, sb, tb, (rs2 ++ [r]), (tc ++ t3), us, x. split; [now rewrite <- app_assoc|].
      split; [exact B1|]. split; [exact B2|]. split.
      { eapply run_calls_app; [exact B3|]. cbn [run_calls]. unfold bind, ret. rewrite Hc. now rewrite !app_nil_r. }
      split; [exact B4|]. split; [exact B5|]. split; [exact B6|]. split; [congruence|]. intro C. apply B8. clear B8.
      destruct (pingresp_app _ _ _ _ _ _ B3 C) as [C'|C']; [exact C'|]. cbn [pingresp_handled] in C'. rewrite Hc in C'. destruct C' as [(-> & C')|[]].
      apply pingresp_clears in Hc; auto. congruence.
    + exists l, c, [], r1, s1, t1, r, s2, t3, [], [], used, x. repeat split; auto.
Qed.
Lemma timeout_after_silence l s0 rs s t s' t' : opened G n m s0 -> run_calls G l s0 = Ret rs s t -> processLoop G s = Ret KeepAliveTimeout s' t' ->
  exists l1 c l2 rs1 s1 t1 r s2 t2 rs2 t3 used x now later,
    l = l1 ++ c :: l2 /\ run_calls G l1 s0 = Ret rs1 s1 t1 /\ run_call G c s1 = Ret r s2 t2 /\ run_calls G l2 s2 = Ret rs2 s t3 /\
    (exists a b, outs t2 = a ++ pingreq_packet ++ b) /\ e_times (s_env s1) = used ++ e_times (s_env s2) /\ In x used /\
    ~ pingresp_handled G l2 s2 /\ e_times (s_env s) = now :: later /\ g_pingto G < since now x.
Proof.
  intros Ho H Hp. apply process_timeout with (n := n) (m := m) in Hp; [|now exists s0, l, rs, t].
  destruct Hp as (Hp & _). destruct (Hp eq_refl) as (_ & Hw & now & later & En & Hlt).
  destruct (timeout_silence l s0 rs s t Ho H Hw) as (l1 & c & l2 & rs1 & s1 & t1 & r & s2 & t2 & rs2 & t3 & used & x & A1 & A2 & A3 & A4 & A5 & A6 & A7 & A8 & A9).
  exists l1, c, l2, rs1, s1, t1, r, s2, t2, rs2, t3, used, x, now, later. repeat (split; [assumption|]). rewrite A8 in Hlt.
  unfold since in *. rewrite <- Zminus_mod in Hlt. exact Hlt.
Qed.
End Life.
