(** Every API call is a sequence of a few kinds of steps; what this means for the
    connection status, the in-flight state and the receive buffer. *)
From Verif Require Import Base StateModel StateSpec StateHarness StateProofs StateProofs2 SerModel WireSpec SerHarness SerProofs SerProofs2 SerProofs3 SerProofs4
  CoreModel CoreHarness CoreSpec CoreProofs CoreProofs2 CoreProofs3 CoreProofs4 CoreProofs5 CoreProofs6 CoreProofs7 CoreProofs8 CoreProofs9 CoreProofs10 CoreProofs11 CoreProofs12.

Section Steps.
Variable G : cfg.
(** a well-formed receive side in a memory of bytes *)
Definition rx_all (s : st) : Prop := rx_ok G s /\ bytes_ok (x_buf (s_ctx s)).
Definition is_note (e : ev) : bool := match e with EPkt _ _ | EDrop _ _ => true | _ => false end.
(** [d]: MQTT_Disconnect may happen; [k]: MQTT_Connect may happen *)
Inductive xatom (d k : bool) : st -> st -> list ev -> Prop :=
| x_atom s s' t : atom d s s' t -> xatom d k s s' t
| x_take s s' t err b i : recv_only t -> env_recvd s s' -> zlen b = zlen (x_buf (s_ctx s)) -> rx_all s' ->
    (if err : bool then (exists t0, t = t0 ++ [EInErr] /\ errs t0 = false) /\ s_ctx s' = transport_broke (set_index (set_buf (s_ctx s) b) i)
     else errs t = false /\ s_ctx s' = set_index (set_buf (s_ctx s) b) i) -> xatom d k s s' t
| x_note s e : is_note e = true -> xatom d k s s [e]
| x_refuse s : k = true -> xatom d k s (mkSt (transport_broke (s_ctx s)) (s_env s)) []
| x_greet s bs ok s' t : k = true -> x_status (s_ctx s) = NotConnected -> sentb bs s ok s' t -> xatom d k s s' t
| x_wait s s' t b : k = true -> x_status (s_ctx s) = NotConnected -> recv_only t -> env_recvd s s' ->
    zlen b = zlen (x_buf (s_ctx s)) -> rx_all s' -> s_ctx s' = set_buf (s_ctx s) b -> xatom d k s s' t
| x_accept s ka : k = true -> x_status (s_ctx s) = NotConnected -> xatom d k s (mkSt (connected (s_ctx s) ka) (s_env s)) [].
Inductive XPath (d k : bool) : st -> st -> list ev -> Prop :=
| xp_nil s : XPath d k s s []
| xp_step s1 s2 s3 t1 t2 : xatom d k s1 s2 t1 -> XPath d k s2 s3 t2 -> XPath d k s1 s3 (t1 ++ t2).
Lemma xpath_one d k s s' t : xatom d k s s' t -> XPath d k s s' t.
Proof. intro H. rewrite <- (app_nil_r t). eapply xp_step; [exact H|]. constructor. Qed.
Lemma xpath_app d k s1 s2 s3 t1 t2 : XPath d k s1 s2 t1 -> XPath d k s2 s3 t2 -> XPath d k s1 s3 (t1 ++ t2).
Proof.
  intro H. revert s3 t2. induction H as [s|s1 s2 s3 t1 t2 A H IH]; intros s4 t3 K; [exact K|].
  rewrite <- app_assoc. eapply xp_step; eauto.
Qed.
Lemma xpath_path d k s s' t : Path d s s' t -> XPath d k s s' t.
Proof. induction 1; [constructor|]. eapply xp_step; [apply x_atom; eauto|auto]. Qed.
Lemma path_weak d s s' t : Path false s s' t -> Path d s s' t.
Proof.
  induction 1 as [|s1 s2 s3 t1 t2 A H IH]; [constructor|]. eapply p_step; [|exact IH].
  destruct A; try (econstructor; eauto; fail). discriminate.
Qed.

(** with disconnection allowed, the receive side is still well formed afterwards *)
Lemma same_rx_all s s' : same_rx s s' -> rx_all s -> rx_all s'.
Proof. intros H (K1 & K2). split; [eapply same_rx_ok; eauto|]. destruct H as (-> & _). exact K2. Qed.
Lemma zeros_bytes n : bytes_ok (repeat 0 n).
Proof. unfold bytes_ok. apply Forall_forall. intros x Hx. apply repeat_spec in Hx. subst. unfold is_byte. lia. Qed.
Lemma atom_rx d s s' t : atom d s s' t -> rx_all s -> rx_all s'.
Proof.
  intros A Hr. assert (D : d = false \/ d = true) by (destruct d; auto).
  destruct A as [s s' t (E1 & E2 & E3 & E4 & E5) (F1 & F2 & F3) Hs|s o r c H1 H2|s bs ok s' t H1 H2|s ty data id pub result|s ok s' t -> Hn H].
  - eapply same_rx_all; eauto. repeat split; auto.
  - exact Hr.
  - eapply same_rx_all; [|exact Hr]. eapply sentb_same_rx; eauto.
  - exact Hr.
  - apply sentb_same_rx in H. destruct H as (H & _). eapply same_rx_all; [exact H|].
    destruct Hr as ((R1 & R2 & R3 & R4 & R5) & R6). unfold rx_all, rx_ok, disconnected, pend in *. cbn [s_ctx s_env].
    repeat split; auto; cbn.
    all: try (unfold zlen in *; rewrite ?repeat_length; lia); try constructor. apply zeros_bytes.
Qed.
Lemma path_rx d s s' t : Path d s s' t -> rx_all s -> rx_all s'.
Proof. induction 1; auto. intro. apply IHPath. eapply atom_rx; eauto. Qed.
Lemma xatom_rx d k s s' t : xatom d k s s' t -> rx_all s -> rx_all s'.
Proof.
  intros A Hr. destruct A as [s s' t A|s s' t err b i A1 A2 A3 A4 A5|s e A|s A|s bs ok s' t A1 A2 A3|s s' t b A1 A2 A3 A4 A5 A6 A7|s ka A1 A2].
  - eapply atom_rx; eauto.
  - exact A4.
  - exact Hr.
  - unfold rx_all, rx_ok, pend in *. cbn [s_ctx s_env]. destruct (broke_fields (s_ctx s)) as (-> & -> & _). exact Hr.
  - eapply same_rx_all; [|exact Hr]. eapply sentb_same_rx; eauto.
  - exact A6.
  - exact Hr.
Qed.
Lemma xpath_rx d k s s' t : XPath d k s s' t -> rx_all s -> rx_all s'.
Proof. induction 1; auto. intro. apply IHXPath. eapply xatom_rx; eauto. Qed.

(** ** The receive loops *)
Lemma discard_x d k ty rem hdr s st s' t : rx_all s -> 0 <= rem -> 0 <= hdr -> rem + hdr < 4294967296 ->
  discardStoredPacket G ty rem hdr s = Ret st s' t -> XPath d k s s' t.
Proof.
  intros Hr H1 H2 H3 H. pose proof Hr as ((R1 & R2 & R3 & R4 & R5) & R6).
  apply discardStoredPacket_spec in H; try lia. destruct H as (_ & bs & err & s1 & t1 & (Q1 & Q2 & Q3 & (i & a & x & Q4) & b & Q5 & _ & Q6) & -> & -> & _).
  change (EDrop ty rem :: t1) with ([EDrop ty rem] ++ t1). eapply xp_step; [now apply x_note|]. apply xpath_one.
  assert (Hz : zlen (repeat 0 (length b)) = zlen b) by (unfold zlen; now rewrite repeat_length).
  eapply (x_take d k s _ t1 err (repeat 0 (length b)) 0); auto.
  - exists i, a, x. exact Q4.
  - congruence.
  - unfold rx_all, rx_ok, pend. cbn [s_ctx s_env].
    assert (Eb : length (x_buf (s_ctx s1)) = length (x_buf (s_ctx s))).
    { unfold zlen in Q5. destruct err; destruct Q6 as (_ & ->); [rewrite (proj1 (broke_fields _))|]; cbn [set_buf x_buf]; lia. }
    unfold emptied. cbn [set_index set_buf x_index x_buf]. unfold zlen in *. rewrite !repeat_length, Eb.
    repeat split; auto; try lia. { constructor. }
    + rewrite Q3 in R5. apply Forall_app in R5. apply R5.
    + apply zeros_bytes.
  - destruct err; destruct Q6 as (K & Q6).
    + split; auto. unfold emptied. cbn [s_ctx]. rewrite Q6. destruct (broke_fields (set_buf (s_ctx s) b)) as (-> & _). cbn [x_buf set_buf].
      unfold transport_broke. cbn [set_index set_buf x_status]. destruct (cstatus_beq _ _); reflexivity.
    + split; auto. unfold emptied. cbn [s_ctx]. rewrite Q6. reflexivity.
Qed.
Lemma sub_bytes b i n : bytes_ok b -> bytes_ok (sub b i n).
Proof.
  unfold bytes_ok, sub. rewrite !Forall_forall. intros H x Hx. apply H.
  rewrite <- (firstn_skipn (Z.to_nat i) b). apply in_app_iff. right.
  rewrite <- (firstn_skipn (Z.to_nat n) (skipn _ b)). apply in_app_iff. left. exact Hx.
Qed.
Lemma iteration_x mk s st s' t : rx_all s -> cbs_ok false s -> receiveSingleIteration G mk s = Ret st s' t -> XPath false false s s' t.
Proof.
  intros Hr Hd H. apply iteration_spec in H; [|apply Hr].
  destruct H as [(-> & -> & Ec & rv & a & E & _)|(bs & s1 & k & s2 & t2 & t3 & A & -> & Hk & H)].
  { apply xpath_one. eapply (x_take _ _ _ _ _ true (x_buf (s_ctx s)) (x_index (s_ctx s))); auto.
    - reflexivity.
    - exists (e_in (s_env s)), rv, (e_times (s_env s)). rewrite E. destruct (s_env s); reflexivity.
    - unfold rx_all, rx_ok, pend in *. rewrite Ec, E. destruct (broke_fields (s_ctx s)) as (-> & -> & _). exact Hr.
    - split; [exists []; auto|]. rewrite Ec. f_equal. destruct (s_ctx s); reflexivity. }
  pose proof (arrived_framed _ _ _ _ (proj1 Hr) A) as F1. assert (Hr1 : rx_ok G s1) by apply F1.
  pose proof (arrived_cbs false _ _ _ A Hd) as Hd1.
  assert (Hr1' : rx_all s1).
  { split; auto. destruct A as (A1 & _ & -> & A4). cbn [x_buf set_index set_buf]. apply store_at_bytes; [apply Hr|].
    destruct Hr as ((_ & _ & _ & _ & R5) & _). rewrite A1 in R5. apply Forall_app in R5. apply R5. }
  clear Hr1 F1. rename Hr1' into Hr1.
  change (EIn bs :: t2 ++ t3) with ([EIn bs] ++ t2 ++ t3). eapply xp_step.
  { destruct A as (A1 & (rv & a & A2 & _) & A3 & A4).
    eapply (x_take _ _ _ _ _ false (store_at (x_buf (s_ctx s)) (x_index (s_ctx s)) bs)); auto.
    - reflexivity.
    - exists (e_in (s_env s1)), rv, (e_times (s_env s)). rewrite A2 at 1. destruct (s_env s); reflexivity.
    - apply store_at_len; auto. destruct Hr as ((_ & ? & _) & _). lia.
    - exact Hr1.
    - split; [reflexivity|exact A3]. }
  assert (P : Path false s1 s2 t2).
  { destruct ((zlen bs =? 0) && mk); [eapply keepAlive_path; eauto|]. destruct Hk as (_ & -> & ->). constructor. }
  eapply xpath_app; [apply xpath_path; exact P|].
  pose proof (path_cbs _ _ _ _ P Hd1) as Hd2. pose proof (path_rx _ _ _ _ P Hr1) as Hr2. clear Hr1 Hd1 P.
  destruct H as [(_ & _ & -> & ->)|(-> & hs & type & rem & hdr & Hh & H)]; [constructor|]. cbv zeta in H.
  destruct H as [(_ & _ & -> & ->)|[(-> & Hl & x & H & E)|[(_ & _ & _ & -> & ->)|(-> & Hl & data & x & s3 & t4 & s4 & -> & H1 & H2 & -> & E & H)]]].
  - constructor.
  - destruct (got_header_range _ _ _ _ _ _ (proj1 Hr2) Hh eq_refl) as (G1 & G2 & G3 & G4 & _).
    eapply discard_x; eauto; try lia.
  - constructor.
  - match goal with |- XPath _ _ _ _ (?e :: _) => change (e :: t4) with ([e] ++ t4) end.
    eapply xp_step; [now apply x_note|]. rewrite <- (app_nil_r t4).
    pose proof (dispatch_path G false _ _ _ _ _ Hd2 _ _ _ H1) as P3. pose proof (path_rx _ _ _ _ P3 Hr2) as Hr3.
    eapply xpath_app; [apply xpath_path; exact P3|].
    assert (S : same_rx s2 s3) by (eapply path_same_rx; eauto).
    assert (Hi3 : rem + hdr <= x_index (s_ctx s3)) by (destruct S as (_ & -> & _); exact Hl).
    destruct (got_header_range _ _ _ _ _ _ (proj1 Hr2) Hh eq_refl) as (G1 & G2 & G3 & G4 & _).
    apply shift_spec in H2; [|apply Hr3|lia]. destruct H2 as (-> & _).
    rewrite <- (app_nil_l []). eapply xp_step; [|rewrite <- (app_nil_l []); eapply xp_step; [|constructor]].
    + eapply (x_take _ _ _ (mkSt (shifted (s_ctx s3) (rem + hdr)) (s_env s3)) _ false (x_buf (shifted (s_ctx s3) (rem + hdr))) (x_index (shifted (s_ctx s3) (rem + hdr)))); try reflexivity.
      * exists (e_in (s_env s3)), (e_recvs (s_env s3)), (e_times (s_env s3)). cbn [s_env]. destruct (s_env s3); reflexivity.
      * apply (shifted_pend G _ _ (s_env s3) (proj1 Hr3)); auto; lia.
      * split; [apply (shifted_pend G _ _ (s_env s3) (proj1 Hr3)); auto; lia|]. unfold shifted. cbn [s_ctx set_buf set_index x_buf].
        apply store_at_bytes; [apply Hr3|]. apply sub_bytes. apply Hr3.
      * split; auto.
    + destruct (status_beq x Success); [destruct H as (n & l & _ & ->)|subst s']; apply x_atom, a_local; repeat split.
Qed.

(** ** MQTT_Connect *)
Lemma clear_silent l : silent (map EClear l).
Proof. unfold silent. induction l; auto. Qed.
Lemma path_true s s' t : Path false s s' t -> Path true s s' t.
Proof. apply path_weak. Qed.
Lemma waited_x d clean res sp s s' t : rx_all s -> x_status (s_ctx s) = NotConnected -> waited clean res sp s s' t -> XPath d true s s' t.
Proof.
  intros Hr Hs (bs & b & Q1 & Q2 & Q3 & Q4 & Q5 & Q6 & Q7 & _). apply xpath_one. eapply x_wait; eauto.
  destruct Hr as ((R1 & R2 & R3 & R4 & R5) & R6). specialize (Q6 R6). unfold rx_all, rx_ok, pend. rewrite Q7.
  cbn [set_buf x_buf x_index]. rewrite Q5. split; [|exact Q6]. repeat split; auto; try lia.
  - unfold bytes_ok in *. rewrite Forall_forall in *. intros x Hx. apply Q6. rewrite <- (firstn_skipn (Z.to_nat (x_index (s_ctx s))) b). apply in_app_iff. auto.
  - rewrite Q3 in R5. apply Forall_app in R5. apply R5.
Qed.
Lemma connect_x n m ci will tmo s st sp s' t : rx_all s -> Reach n m (x_recs (s_ctx s)) ->
  connect G ci will tmo s = Ret (st, sp) s' t -> XPath false true s s' t.
Proof.
  intros Hr Hc H. eapply connect_spec in H; eauto; [|apply Hr].
  destruct H as [(_ & _ & _ & -> & ->)|(rl & total & _ & H)]; [apply xpath_one; now apply x_refuse|].
  destruct H as [[(_ & _ & _ & -> & ->)|(_ & _ & _ & -> & ->)]|(Hs & H)]; try constructor.
  destruct H as [(_ & _ & -> & ->)|(vs & ok & s1 & t1 & Hv & H1 & H)]; [constructor|].
  assert (X1 : XPath false true s s1 t1) by (apply xpath_one; eapply x_greet; eauto).
  destruct (sentb_nc _ _ _ _ _ Hs H1) as (l & Ec). assert (Hs1 : x_status (s_ctx s1) = NotConnected) by (rewrite Ec; exact Hs).
  pose proof (xpath_rx _ _ _ _ _ X1 Hr) as Hr1.
  destruct H as [(_ & _ & _ & -> & ->)|(-> & st2 & s2 & t2 & Hw & H)]; auto.
  pose proof (waited_x false _ _ _ _ _ _ Hr1 Hs1 Hw) as X2. pose proof (xpath_rx _ _ _ _ _ X2 Hr1) as Hr2.
  destruct Hw as (bs & b & _ & _ & _ & _ & _ & _ & Ec2 & _). assert (Hs2 : x_status (s_ctx s2) = NotConnected) by (rewrite Ec2; exact Hs1).
  destruct H as [(_ & _ & -> & ->)|[(_ & _ & _ & -> & ->)|(_ & _ & _ & s3 & t3 & H3 & -> & ->)]].
  - eapply xpath_app; eauto.
  - eapply xpath_app; [exact X1|]. eapply xpath_app; [exact X2|].
    set (l2 := if x_retr _ then _ else _). assert (Hl : silent l2) by (subst l2; destruct (x_retr (s_ctx s)); [apply clear_silent|reflexivity]).
    clearbody l2. rewrite <- (app_nil_l l2). eapply xp_step.
    { eapply (x_take _ _ _ (mkSt (emptied (s_ctx s2)) (s_env s2)) _ false (repeat 0 (length (x_buf (s_ctx s2)))) 0); try reflexivity.
      - exists (e_in (s_env s2)), (e_recvs (s_env s2)), (e_times (s_env s2)). destruct (s_env s2); reflexivity.
      - unfold zlen. now rewrite repeat_length.
      - destruct Hr2 as ((R1 & R2 & R3 & R4 & R5) & R6). unfold rx_all, rx_ok, pend, emptied. cbn [s_ctx s_env x_buf x_index set_index set_buf].
        unfold zlen in *. rewrite repeat_length. repeat split; auto; try lia. + constructor. + apply zeros_bytes.
      - split; reflexivity. }
    rewrite <- (app_nil_l l2). eapply xp_step.
    { apply x_atom. eapply (a_engine _ _ NewSession (Success, None)); [exact I|reflexivity]. }
    rewrite <- (app_nil_r l2). eapply xp_step.
    { apply x_atom. apply (a_local _ _ (mkSt (cleaned (s_ctx s2)) (s_env s2))); auto; repeat split. }
    apply xpath_one. apply (x_accept _ _ (mkSt (cleaned (s_ctx s2)) (s_env s2))); auto.
  - eapply xpath_app; [exact X1|]. eapply xpath_app; [exact X2|]. rewrite <- (app_nil_l t3). eapply xp_step; [apply x_accept; auto|].
    assert (Er : x_recs (s_ctx s2) = x_recs (s_ctx s)) by (rewrite Ec2; cbn; rewrite Ec; reflexivity).
    eapply resume_spec in H3; [|cbn; rewrite Er; exact Hc|reflexivity]. destruct H3 as (P & _).
    destruct (status_beq st Success); [apply xpath_path; exact P|].
    rewrite <- (app_nil_r t3). eapply xpath_app; [apply xpath_path; exact P|]. apply xpath_one. now apply x_refuse.
Qed.

(** ** All calls *)
Lemma xpath_mono d k d' k' s s' t : XPath d k s s' t -> (d = true -> d' = true) -> (k = true -> k' = true) -> XPath d' k' s s' t.
Proof.
  intros H Hd Hk. induction H as [|s1 s2 s3 t1 t2 A H IH]; [constructor|]. eapply xp_step; [|exact IH]. clear - A Hd Hk.
  destruct A as [s s' t A|s s' t err b i A1 A2 A3 A4 A5|s e A|s A|s bs ok s' t A1 A2 A3|s s' t b A1 A2 A3 A4 A5 A6 A7|s ka A1 A2].
  - apply x_atom. destruct A; [eapply a_local|eapply a_engine|eapply a_send|eapply a_callback|eapply a_disconnect]; eauto.
  - eapply x_take; eauto.
  - now apply x_note.
  - apply x_refuse; auto.
  - eapply x_greet; eauto.
  - eapply x_wait; eauto.
  - apply x_accept; auto.
Qed.
Lemma call_x n m c s st s' t : rx_all s -> Reach n m (x_recs (s_ctx s)) -> cbs_ok false s ->
  run_call G c s = Ret st s' t -> XPath (call_disc c) (call_conn c) s s' t.
Proof.
  intros Hr Hc Hd H. destruct c as [o|ci will tmo| |]; cbn [call_disc call_conn run_call] in *.
  - apply xpath_path. eapply run_op_path; eauto.
  - apply bind_inv in H. destruct H as ((st1, sp) & s1 & t1 & t2 & H1 & H & ->). apply ret_inv in H. destruct H as (-> & -> & ->).
    rewrite app_nil_r. eapply connect_x; eauto.
  - rewrite process_eq in H. apply iteration_x in H; auto. rewrite <- (app_nil_l t). eapply xp_step; [|exact H].
    apply x_atom, a_local; repeat split.
  - eapply iteration_x; eauto.
Qed.
Lemma xpath_cbs d k s s' t : XPath d k s s' t -> cbs_ok false s -> cbs_ok false s'.
Proof.
  induction 1 as [|s1 s2 s3 t1 t2 A H IH]; auto. intro K. apply IH. clear - A K.
  destruct A as [s s' t A|s s' t err b i A1 A2 A3 A4 A5|s e A|s A|s bs ok s' t A1 A2 A3|s s' t b A1 A2 A3 A4 A5 A6 A7|s ka A1 A2]; auto.
  - destruct A as [s s' t (E1 & E2 & E3 & E4 & E5) (F1 & F2 & F3) Hs|s o r c H1 H2|s bs ok s' t H1 H2|s ty data id pub result|s ok s' t -> Hn H].
    + unfold cbs_ok in *. now rewrite F3.
    + exact K.
    + destruct H2 as (_ & _ & _ & _ & _ & (x & y & E) & _). unfold cbs_ok. rewrite E. exact K.
    + now apply cbs_ok_tl.
    + destruct H as (_ & _ & _ & _ & _ & (x & y & E) & _). unfold cbs_ok. rewrite E. exact K.
  - destruct A2 as (x & y & z & E). unfold cbs_ok. rewrite E. exact K.
  - destruct A3 as (_ & _ & _ & _ & _ & (x & y & E) & _). unfold cbs_ok. rewrite E. exact K.
  - destruct A4 as (x & y & z & E). unfold cbs_ok. rewrite E. exact K.
Qed.
Lemma xatom_reach d k n m s s' t : xatom d k s s' t -> Reach n m (x_recs (s_ctx s)) -> Reach n m (x_recs (s_ctx s')).
Proof.
  intros A H. destruct A as [s s' t A|s s' t err b i A1 A2 A3 A4 A5|s e A|s A|s bs ok s' t A1 A2 A3|s s' t b A1 A2 A3 A4 A5 A6 A7|s ka A1 A2]; auto.
  - eapply atom_reach; eauto.
  - destruct err; destruct A5 as (_ & ->); auto. destruct (broke_fields (set_index (set_buf (s_ctx s) b) i)) as (_ & _ & -> & _). exact H.
  - cbn [s_ctx]. destruct (broke_fields (s_ctx s)) as (_ & _ & -> & _). exact H.
  - rewrite (sentb_recs _ _ _ _ _ A3). exact H.
  - rewrite A7. exact H.
Qed.
Lemma xpath_reach d k n m s s' t : XPath d k s s' t -> Reach n m (x_recs (s_ctx s)) -> Reach n m (x_recs (s_ctx s')).
Proof. induction 1; auto. intro K. apply IHXPath. eapply xatom_reach; eauto. Qed.
Lemma calls_x n m l : forall s rs s' t, rx_all s -> Reach n m (x_recs (s_ctx s)) -> cbs_ok false s ->
  run_calls G l s = Ret rs s' t ->
  XPath (existsb call_disc l) (existsb call_conn l) s s' t /\ rx_all s' /\ Reach n m (x_recs (s_ctx s')) /\ cbs_ok false s'.
Proof.
  induction l as [|c l IH]; intros s rs s' t Hr Hc Hd H; cbn [run_calls] in H.
  - mgo H. split; [constructor|auto].
  - apply bind_inv in H. destruct H as (x & s1 & t1 & t2 & H1 & H & ->).
    apply bind_inv in H. destruct H as (xs & s2 & t3 & t4 & H2 & H & ->). apply ret_inv in H. destruct H as (-> & -> & ->).
    rewrite app_nil_r. eapply call_x in H1; eauto.
    eapply IH in H2; eauto using xpath_rx, xpath_reach, xpath_cbs. destruct H2 as (X & H2). split; [|exact H2].
    eapply xpath_app; eapply xpath_mono; eauto; cbn [existsb]; intros ->; auto using orb_true_r.
Qed.

(** ** Connection status and traffic *)
Lemma quiet_app a b : quiet a -> quiet b -> (errs a = true -> outs b = []) -> quiet (a ++ b).
Proof.
  induction a as [|e a IH]; intros Ha Hb H; auto. cbn [quiet app] in *. unfold errs in H. cbn [existsb] in H. destruct (is_err e).
  - rewrite outs_app, Ha. auto.
  - apply IH; auto.
Qed.
Lemma quiet_noerr t : errs t = false -> quiet t.
Proof. induction t as [|e t IH]; cbn; auto. unfold errs in *. cbn. destruct (is_err e); [discriminate|auto]. Qed.
Lemma quiet_last t : errs t = false -> forall e, quiet (t ++ [e]).
Proof.
  intros H e. apply quiet_app; [now apply quiet_noerr| |congruence]. cbn. destruct (is_err e); auto.
Qed.
Lemma quiet_noout t : outs t = [] -> quiet t.
Proof.
  induction t as [|e t IH]; cbn; auto. unfold outs in *. cbn [flat_map]. intro H. apply app_eq_nil in H. destruct H as (_ & H).
  destruct (is_err e); auto.
Qed.
Definition live (s s' : st) (t : list ev) : Prop :=
  match x_status (s_ctx s) with
  | Connected => quiet t /\ x_status (s_ctx s') = if errs t then DisconnectPending else Connected
  | x => outs t = [] /\ x_status (s_ctx s') = x
  end.
Lemma live_trans s1 s2 s3 t1 t2 : live s1 s2 t1 -> live s2 s3 t2 -> live s1 s3 (t1 ++ t2).
Proof.
  unfold live. rewrite outs_app, errs_app. destruct (x_status (s_ctx s1)).
  - intros (-> & ->) (-> & ->). auto.
  - intros (-> & ->) (-> & ->). auto.
  - intros (Q1 & ->). destruct (errs t1) eqn:E; cbn [orb].
    + intros (O & ->). split; auto. apply quiet_app; auto. now apply quiet_noout.
    + intros (Q2 & ->). split; auto. apply quiet_app; auto. congruence.
Qed.
Lemma live_quiet s s' t : outs t = [] -> errs t = false -> x_status (s_ctx s') = x_status (s_ctx s) -> live s s' t.
Proof. intros H1 H2 H3. unfold live. rewrite H1, H2, H3. destruct (x_status (s_ctx s)); auto. split; auto. now apply quiet_noerr. Qed.
Lemma silent_outs t : silent t -> outs t = [] /\ errs t = false.
Proof.
  unfold silent. induction t as [|e t IH]; auto. cbn [forallb]. intro H. apply andb_true_iff in H. destruct H as (H1 & H2).
  destruct (IH H2) as (K1 & K2). unfold outs, errs in *. cbn. rewrite K1, K2. destruct e; try discriminate; auto.
Qed.
Lemma recv_outs t : recv_only t -> outs t = [].
Proof.
  unfold recv_only. induction t as [|e t IH]; auto. cbn [forallb]. intro H. apply andb_true_iff in H. destruct H as (H1 & H2).
  unfold outs in *. cbn. rewrite (IH H2). destruct e; try discriminate; auto.
Qed.
Lemma broke_status c : x_status (transport_broke c) = match x_status c with Connected => DisconnectPending | x => x end.
Proof. unfold transport_broke. destruct (x_status c) eqn:E; cbn; auto. Qed.
Lemma atom_live s s' t : atom false s s' t -> live s s' t.
Proof.
  intro A. destruct A as [s s' t (E1 & E2 & E3 & E4 & E5) (F1 & F2 & F3) Hs|s o r c H1 H2|s bs ok s' t H1 H2|s ty data id pub result|s ok s' t ? Hn H].
  - apply silent_outs in Hs. apply live_quiet; tauto.
  - now apply live_quiet.
  - unfold live. rewrite H1. destruct H2 as (k & l & Q1 & Q2 & Q3 & Q4 & Q5 & Q6 & [(E & ->)|(_ & (t0 & -> & E) & ->)]).
    + rewrite E. split; [now apply quiet_noerr|exact H1].
    + rewrite errs_app, E. cbn [errs existsb is_err orb]. split; [now apply quiet_last|]. rewrite broke_status. cbn. now rewrite H1.
  - now apply live_quiet.
  - discriminate.
Qed.
Lemma xatom_live s s' t : xatom false false s s' t -> live s s' t.
Proof.
  intro A. destruct A as [s s' t A|s s' t err b i A1 A2 A3 A4 A5|s e A|s A|s bs ok s' t A1 A2 A3|s s' t b A1 A2 A3 A4 A5 A6 A7|s ka A1 A2]; try discriminate.
  - now apply atom_live.
  - apply recv_outs in A1. destruct err.
    + destruct A5 as ((t0 & -> & E) & Ec). unfold live. rewrite Ec, broke_status, errs_app, E, A1. cbn [set_index set_buf x_status errs existsb is_err orb].
      destruct (x_status (s_ctx s)); auto. split; auto. now apply quiet_last.
    + destruct A5 as (E & Ec). apply live_quiet; auto. rewrite Ec. reflexivity.
  - apply live_quiet; auto; destruct e; try discriminate; reflexivity.
Qed.
Lemma xpath_live s s' t : XPath false false s s' t -> live s s' t.
Proof. intro H. remember false as d in H at 1. remember false as k in H.
  induction H as [s|s1 s2 s3 t1 t2 A H IH]; subst; [apply live_quiet; auto|]. eapply live_trans; [eapply xatom_live; eauto|auto]. Qed.

(** with reconnection attempts *)
Definition stuck_broken (s s' : st) (t : list ev) : Prop :=
  match x_status (s_ctx s) with
  | NotConnected => True
  | DisconnectPending => outs t = [] /\ x_status (s_ctx s') = DisconnectPending
  | Connected => quiet t /\ x_status (s_ctx s') <> NotConnected /\ (errs t = true -> x_status (s_ctx s') = DisconnectPending)
  end.
Lemma broken_trans s1 s2 s3 t1 t2 : stuck_broken s1 s2 t1 -> stuck_broken s2 s3 t2 -> stuck_broken s1 s3 (t1 ++ t2).
Proof.
  unfold stuck_broken. rewrite outs_app, errs_app. destruct (x_status (s_ctx s1)); auto.
  - intros (-> & ->) (-> & ->). auto.
  - intros (Q1 & N & E1). destruct (x_status (s_ctx s2)); [contradiction| |].
    + intros (O & ->). split; [apply quiet_app; auto; now apply quiet_noout|]. split; [discriminate|auto].
    + intros (Q2 & N2 & E2). assert (E : errs t1 = false) by (destruct (errs t1); auto; discriminate (E1 eq_refl)). rewrite E. cbn [orb].
      split; [apply quiet_app; auto; congruence|auto].
Qed.
Lemma live_broken s s' t : live s s' t -> stuck_broken s s' t.
Proof.
  unfold live, stuck_broken. destruct (x_status (s_ctx s)); auto. intros (Q & ->). split; auto. destruct (errs t); split; auto; discriminate.
Qed.
Lemma xatom_broken s s' t : xatom false true s s' t -> stuck_broken s s' t.
Proof.
  intro A. destruct A as [s s' t A|s s' t err b i A1 A2 A3 A4 A5|s e A|s A|s bs ok s' t A1 A2 A3|s s' t b A1 A2 A3 A4 A5 A6 A7|s ka A1 A2].
  - apply live_broken. now apply atom_live.
  - apply live_broken. apply xatom_live. eapply x_take; eauto.
  - apply live_broken. apply xatom_live. now apply x_note.
  - unfold stuck_broken. cbn [s_ctx]. rewrite broke_status. destruct (x_status (s_ctx s)); auto. cbn. repeat split; discriminate || auto.
  - unfold stuck_broken. now rewrite A2.
  - unfold stuck_broken. now rewrite A2.
  - unfold stuck_broken. now rewrite A2.
Qed.
Lemma xpath_broken s s' t : XPath false true s s' t -> stuck_broken s s' t.
Proof. intro H. remember false as d in H. remember true as k in H.
  induction H as [s|s1 s2 s3 t1 t2 A H IH]; subst; [apply live_broken, live_quiet; auto|]. eapply broken_trans; [eapply xatom_broken; eauto|auto]. Qed.
End Steps.
