(** Histories of calls: framing, and traffic only while connected. *)
From Verif Require Import Base StateModel StateSpec StateHarness SerModel WireSpec SerProofs SerProofs3
  CoreModel CoreHarness CoreSpec CoreProofs CoreProofs2 CoreProofs3 CoreProofs5 CoreProofs6 CoreProofs7 CoreProofs8 CoreProofs9.

Section Hist.
Variable G : cfg.

(** ** Framing over histories *)
Lemma run_calls_inv {P : st -> Prop} {Q : st -> st -> list ev -> Prop} (ok : call -> bool) (fine : status -> bool)
  (Hnil : forall s, P s -> Q s s [])
  (Htr : forall s1 s2 s3 t1 t2, Q s1 s2 t1 -> Q s2 s3 t2 -> Q s1 s3 (t1 ++ t2))
  (Hone : forall c s st s' t, ok c = true -> P s -> run_call G c s = Ret st s' t -> fine st = true -> P s' /\ Q s s' t) :
  forall l s rs s' t, forallb ok l = true -> P s -> run_calls G l s = Ret rs s' t -> forallb fine rs = true -> P s' /\ Q s s' t.
Proof.
  induction l as [|c l IH]; intros s rs s' t Hok HP H Hf; cbn [run_calls] in H.
  - mgo H. split; auto.
  - cbn [forallb] in Hok. apply andb_true_iff in Hok. destruct Hok as (Hc & Hl).
    apply bind_inv in H. destruct H as (x & s1 & t1 & t2 & H1 & H & ->).
    apply bind_inv in H. destruct H as (xs & s2 & t3 & t4 & H2 & H & ->). apply ret_inv in H. destruct H as (-> & -> & ->).
    cbn [forallb] in Hf. apply andb_true_iff in Hf. destruct Hf as (Hx & Hxs).
    destruct (Hone _ _ _ _ _ Hc HP H1 Hx) as (P1 & Q1). destruct (IH _ _ _ _ Hl P1 H2 Hxs) as (P2 & Q2).
    split; auto. rewrite app_nil_r. eapply Htr; eauto.
Qed.
Lemma path_cbs_env s s' t : Path false s s' t -> cbs_ok false s -> cbs_ok false s'.
Proof. apply path_cbs. Qed.
Lemma process_eq s : processLoop G s = receiveSingleIteration G true (mkSt (set_ctl (s_ctx s) false) (s_env s)).
Proof. unfold processLoop, bind, modc. cbn [s_ctx s_env]. destruct (receiveSingleIteration _ _ _); reflexivity. Qed.

(** callbacks still to come keep the promise *)
Lemma soaked_cbs d bs err s s' t : soaked bs err s s' t -> cbs_ok d s -> cbs_ok d s'.
Proof. intros (_ & _ & _ & (i & a & b & E) & _). unfold cbs_ok. rewrite E. auto. Qed.
Lemma discard_cbs d ty rem hdr s st s' t : rem + hdr < 4294967296 <= g_M G -> 0 <= x_index (s_ctx s) <= zlen (x_buf (s_ctx s)) ->
  discardStoredPacket G ty rem hdr s = Ret st s' t -> cbs_ok d s -> cbs_ok d s'.
Proof.
  intros A B H K. apply discardStoredPacket_spec in H; auto. destruct H as (_ & bs & err & s1 & t1 & H & _ & -> & _).
  eapply soaked_cbs in H; eauto.
Qed.
Lemma iteration_cbs d mk s st s' t : rx_ok G s -> cbs_ok d s -> receiveSingleIteration G mk s = Ret st s' t -> cbs_ok d s'.
Proof.
  intros Hr Hd H. apply iteration_spec in H; auto.
  destruct H as [(-> & _ & _ & rv & a & E & _)|(bs & s1 & k & s2 & t2 & t3 & A & -> & Hk & H)].
  { unfold cbs_ok. rewrite E. exact Hd. }
  pose proof (arrived_framed _ _ _ _ Hr A) as F1. assert (Hr1 : rx_ok G s1) by apply F1.
  pose proof (arrived_cbs d _ _ _ A Hd) as Hd1.
  assert (P : Path false s1 s2 t2).
  { destruct ((zlen bs =? 0) && mk); [eapply keepAlive_path; eauto|]. destruct Hk as (_ & -> & ->). constructor. }
  assert (Pd : Path d s1 s2 t2).
  { destruct ((zlen bs =? 0) && mk); [eapply keepAlive_path; eauto|]. destruct Hk as (_ & -> & ->). constructor. }
  pose proof (path_cbs _ _ _ _ Pd Hd1) as Hd2. apply path_same_rx in P. destruct P as (P & _).
  pose proof (same_rx_ok _ _ _ P Hr1) as Hr2.
  destruct H as [(_ & _ & -> & ->)|(-> & hs & type & rem & hdr & Hh & H)]; auto. cbv zeta in H.
  destruct H as [(_ & _ & -> & ->)|[(-> & Hl & x & H & E)|[(_ & _ & _ & -> & ->)|(-> & Hl & data & x & s3 & t4 & s4 & -> & H1 & H2 & -> & E & H)]]]; auto.
  - destruct (got_header_range _ _ _ _ _ _ Hr2 Hh eq_refl) as (G1 & G2 & G3 & G4 & _).
    eapply discard_cbs; eauto; apply Hr2 || (split; [lia|apply Hr2]).
  - pose proof (path_cbs _ _ _ _ (dispatch_path G d _ _ _ _ _ Hd2 _ _ _ H1) Hd2) as Hd3.
    assert (cbs_ok d s4) by (clear - H2 Hd3; unfold shift_buffer in H2; mgo H2; exact Hd3).
    destruct (status_beq x Success); [destruct H as (n & l & _ & ->)|subst s']; auto.
Qed.

Lemma call_framed c s st s' t : plain c = true -> rx_ok G s /\ cbs_ok false s ->
  run_call G c s = Ret st s' t -> not_recv_failed st = true -> (rx_ok G s' /\ cbs_ok false s') /\ framed G s s' t.
Proof.
  intros Hp (Hr & Hd) H Hf. assert (Hf' : st <> RecvFailed) by (intros ->; discriminate).
  destruct c as [o| | |]; cbn [plain run_call] in *; try discriminate.
  - apply (run_op_path G false o) in H; [|destruct o; discriminate].
    pose proof (framed_path _ _ _ _ Hr H) as F. split; auto. split; [apply F|]. eapply path_cbs; eauto.
  - rewrite process_eq in H. assert (K := H). apply iteration_cbs with (d := false) in K; auto.
    apply iteration_framed in H; auto. split; [split; [apply H|auto]|exact H].
  - assert (K := H). apply iteration_cbs with (d := false) in K; auto.
    apply iteration_framed in H; auto. split; [split; [apply H|auto]|exact H].
Qed.
Lemma calls_framed l s rs s' t : forallb plain l = true -> rx_ok G s -> cbs_ok false s ->
  run_calls G l s = Ret rs s' t -> forallb not_recv_failed rs = true -> framed G s s' t.
Proof.
  intros Hp Hr Hd H Hf.
  destruct (run_calls_inv (P := fun s => rx_ok G s /\ cbs_ok false s) (Q := framed G) plain not_recv_failed) with (l := l) (s := s) (rs := rs) (s' := s') (t := t); auto.
  - intros x (Hx & _). apply framed_path; auto. constructor.
  - apply framed_trans.
  - apply call_framed.
Qed.

(** ** What a loop call leaves behind *)
Lemma keepAlive_kinds s k s' t : handleKeepAlive G s = Ret k s' t ->
  k = Success \/ k = KeepAliveTimeout \/ k = SendFailed \/ k = StNotConnected \/ k = StDisconnectPending.
Proof.
  assert (P : forall s k s' t, ping G s = Ret k s' t -> k = Success \/ k = SendFailed \/ k = StNotConnected \/ k = StDisconnectPending).
  { clear. intros s k s' t H. apply ping_spec in H.
    destruct H as [(Hc & -> & _)|(_ & ok & s1 & _ & [(_ & -> & _)|(_ & -> & _)])]; auto. 
    unfold must_be_connected. destruct (x_status (s_ctx s)); auto. }
  intro H. unfold handleKeepAlive in H. mgo H. destruct (x_waiting (s_ctx s)).
  { mgo H. destruct (_ <? _); auto. }
  destruct (_ && _); [apply P in H; tauto|]. destruct (_ && _); [apply P in H; tauto|]. mgo H. auto.
Qed.
(** A loop call that read nothing, handled nothing and reports no error leaves
    nothing pending; one that reports MQTTNeedMoreBytes leaves an incomplete packet,
    one that reports MQTTBadResponse without handling a packet leaves garbage. *)
Lemma iteration_leftover mk s st s' t : rx_ok G s -> cbs_ok false s -> receiveSingleIteration G mk s = Ret st s' t ->
  st <> RecvFailed -> items t = [] ->
  st = Success /\ pend (s_ctx s') = [] \/
  st = NeedMoreBytes /\ Incomplete (zlen (x_buf (s_ctx s'))) (pend (s_ctx s')) \/
  st = BadResponse /\ Garbage (pend (s_ctx s')) \/
  mk = true /\ ins t = [] /\ (st = KeepAliveTimeout \/ st = SendFailed \/ st = StNotConnected \/ st = StDisconnectPending).
Proof.
  intros Hr Hd H Hst Hit. apply iteration_spec in H; auto.
  destruct H as [(-> & _)|(bs & s1 & k & s2 & t2 & t3 & A & -> & Hk & H)]; [contradiction|].
  pose proof (arrived_framed _ _ _ _ Hr A) as F1. assert (Hr1 : rx_ok G s1) by apply F1.
  assert (P : Path false s1 s2 t2).
  { destruct ((zlen bs =? 0) && mk); [eapply keepAlive_path; eauto|]. destruct Hk as (_ & -> & ->). constructor. }
  apply path_same_rx in P. destruct P as (P & N). pose proof (same_rx_ok _ _ _ P Hr1) as Hr2.
  destruct H as [(Nk & Es & -> & ->)|(-> & hs & type & rem & hdr & Hh & H)].
  { right; right; right. destruct ((zlen bs =? 0) && mk) eqn:Eb; [|destruct Hk; contradiction].
    destruct mk; [|rewrite andb_false_r in Eb; discriminate]. split; auto.
    assert (bs = []) as -> by (destruct bs; auto; unfold zlen in Eb; cbn in Eb; lia).
    apply no_rx_items in N. destruct N as (_ & N). split; [cbn [ins flat_map app]; rewrite app_nil_r; exact N|].
    apply keepAlive_kinds in Hk. destruct Hk as [->|[->|[->|[->| ->]]]]; subst st; auto. contradiction. }
  pose proof Hr2 as (R0 & R1 & R2 & R3 & R4). cbv zeta in H.
  destruct H as [(Nh & -> & -> & ->)|[(-> & Hl & x & H & E)|[(-> & Hl & -> & -> & ->)|(-> & Hl & data & x & s3 & t4 & s4 & -> & H1 & H2 & -> & E & H)]]].
  - unfold got_header in Hh. replace (status_beq hs Success) with false in Hh by (destruct hs; congruence || reflexivity).
    destruct (hdr_kinds _ R3) as [(a & b & c & K)|[K|[K|K]]]; rewrite K in Hh.
    + exfalso. congruence.
    + left. assert (hs = NoDataAvailable) as -> by congruence. split; auto. now apply hdr_nodata_iff.
    + right; left. assert (hs = NeedMoreBytes) as -> by congruence. split; auto.
      apply hdr_need_iff in K; auto. destruct K as (Hne & more & ty & rl & Hm & Hh'). split; auto.
      pose proof Hh' as (_ & Hrl & _). assert (L : zlen (repeat 0 (Z.to_nat rl)) = rl) by (unfold zlen; rewrite repeat_length; lia).
      exists (more ++ repeat 0 (Z.to_nat rl)), (pend (s_ctx s2) ++ more), ty, (repeat 0 (Z.to_nat rl)).
      split; [destruct more; [contradiction|discriminate]|]. split; [rewrite L; exact Hh'|]. split; [apply app_assoc|].
      intro Z. rewrite CoreProofs.zlen_app in Z. destruct more; [contradiction|]. unfold zlen in Z. cbn [length] in Z. lia.
    + right; right; left. assert (hs = BadResponse) as -> by congruence. split; auto. now apply hdr_bad_iff.
  - exfalso. destruct (got_header_range _ _ _ _ _ _ Hr2 Hh eq_refl) as (G1 & G2 & G3 & G4 & _).
    apply discardStoredPacket_spec in H; [|lia|auto]. destruct H as (_ & b & e & y & u & _ & -> & _).
    change (EIn bs :: t2 ++ EDrop type rem :: u) with ([EIn bs] ++ t2 ++ [EDrop type rem] ++ u) in Hit.
    rewrite !items_app in Hit. apply app_eq_nil in Hit. destruct Hit as (_ & Hit). apply app_eq_nil in Hit. destruct Hit as (_ & Hit). discriminate.
  - right; left. split; auto. destruct (got_header_range _ _ _ _ _ _ Hr2 Hh eq_refl) as (G1 & G2 & G3 & G4 & h & rest & Ep & Hhd & El).
    pose proof (pend_len _ _ Hr2) as P2. split.
    { intro Z. rewrite Z in P2. change (zlen []) with 0 in P2. lia. }
    set (m := rem + hdr - x_index (s_ctx s2)).
    assert (Lm : zlen (repeat 0 (Z.to_nat m)) = m) by (unfold zlen; rewrite repeat_length; lia).
    assert (Lb : zlen (rest ++ repeat 0 (Z.to_nat m)) = rem).
    { rewrite Ep, CoreProofs.zlen_app in P2. rewrite CoreProofs.zlen_app, Lm. lia. }
    exists (repeat 0 (Z.to_nat m)), h, type, (rest ++ repeat 0 (Z.to_nat m)). rewrite Lb.
    split. { intro Z. rewrite Z in Lm. change (zlen []) with 0 in Lm. lia. }
    split; auto. split; [rewrite Ep; now rewrite app_assoc|]. lia.
  - exfalso. match type of Hit with items (EIn bs :: t2 ++ ?e :: t4) = _ => change (EIn bs :: t2 ++ e :: t4) with ([EIn bs] ++ t2 ++ [e] ++ t4) in Hit end.
    rewrite !items_app in Hit. apply app_eq_nil in Hit. destruct Hit as (_ & Hit). apply app_eq_nil in Hit. destruct Hit as (_ & Hit). discriminate.
Qed.
End Hist.
