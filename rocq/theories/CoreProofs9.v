(** Receiving: the packets handled are those of the byte stream. *)
From Verif Require Import Base StateModel StateSpec StateHarness SerModel WireSpec SerProofs SerProofs3
  CoreModel CoreHarness CoreSpec CoreProofs CoreProofs2 CoreProofs3 CoreProofs5 CoreProofs6 CoreProofs7 CoreProofs8.

(** ** The specification *)
Lemma header_len h t rl : header h t rl -> 2 <= zlen h <= 5.
Proof.
  intros (_ & _ & ->). unfold varlen. destruct (rl <? 128); [|destruct (rl <? 16384); [|destruct (rl <? 2097152)]];
    unfold zlen; cbn [length]; lia.
Qed.
Lemma header_byte h t rl : header h t rl -> bytes_ok h.
Proof.
  intros ((Ht & _) & Hl & ->). constructor; auto. unfold max_remaining, varlen, is_byte in *.
  destruct (rl <? 128) eqn:?; [|destruct (rl <? 16384) eqn:?; [|destruct (rl <? 2097152) eqn:?]]; repeat constructor; lia.
Qed.
(** headers are prefix-free *)
Lemma header_det h t rl r h' t' rl' r' : header h t rl -> header h' t' rl' -> h ++ r = h' ++ r' ->
  h = h' /\ t = t' /\ rl = rl' /\ r = r'.
Proof.
  intros H H' E.
  assert (D : forall h t rl r, header h t rl -> hdr_dec (h ++ r) = (Success, Some (t, rl, zlen h))).
  { clear. intros h t rl r H. apply hdr_success_more; [|eapply header_byte; eauto].
    apply hdr_success_iff; [eapply header_byte; eauto|]. exists h, []. rewrite app_nil_r. auto. }
  pose proof (D _ _ _ r H) as K. rewrite E, (D _ _ _ r' H') in K. assert (t = t' /\ rl = rl') as (-> & ->) by (split; congruence).
  destruct H as (_ & _ & ->), H' as (_ & _ & ->). apply app_inv_head in E. auto.
Qed.
Lemma app_eq_len {A} (a b c d : list A) : a ++ b = c ++ d -> length a = length c -> a = c /\ b = d.
Proof.
  revert c. induction a as [|x a IH]; intros [|y c] E L; try discriminate; auto. cbn in E. injection E as -> E.
  injection L as L. destruct (IH _ E L). subst. auto.
Qed.
Lemma frames_prefix B l1 b1 : Frames B l1 b1 -> forall l2 b2 r1 r2, Frames B l2 b2 -> b1 ++ r1 = b2 ++ r2 ->
  (exists l, l1 = l2 ++ l) \/ (exists l, l2 = l1 ++ l).
Proof.
  induction 1 as [|h ty body l bytes H1 H2 H IH|h ty body l bytes H1 H2 H IH]; intros l2 b2 r1 r2 K E.
  - right. exists l2. reflexivity.
  - destruct K as [|h' ty' body' l' bytes' K1 K2 K|h' ty' body' l' bytes' K1 K2 K]; [left; eexists; reflexivity|..];
      rewrite <- !app_assoc in E; destruct (header_det _ _ _ _ _ _ _ _ H1 K1 E) as (<- & <- & El & E');
      apply app_eq_len in E'; try (unfold zlen in El; lia); destruct E' as (<- & E').
    + destruct (IH _ _ _ _ K E') as [(x & ->)|(x & ->)]; [left|right]; exists x; reflexivity.
    + lia.
  - destruct K as [|h' ty' body' l' bytes' K1 K2 K|h' ty' body' l' bytes' K1 K2 K]; [left; eexists; reflexivity|..];
      rewrite <- !app_assoc in E; destruct (header_det _ _ _ _ _ _ _ _ H1 K1 E) as (<- & <- & El & E');
      apply app_eq_len in E'; try (unfold zlen in El; lia); destruct E' as (<- & E').
    + lia.
    + destruct (IH _ _ _ _ K E') as [(x & ->)|(x & ->)]; [left|right]; exists x; reflexivity.
Qed.
Lemma frames_det B l1 l2 b : Frames B l1 b -> Frames B l2 b -> l1 = l2.
Proof.
  intro H. revert l2. induction H as [|h ty body l bytes H1 H2 H IH|h ty body l bytes H1 H2 H IH]; intros l2 K.
  - inversion K as [E|h' ty' body' l' bytes' K1 K2 K3 K4 E|h' ty' body' l' bytes' K1 K2 K3 K4 E]; auto;
      apply header_len in K1; destruct h'; try discriminate; unfold zlen in K1; cbn in K1; lia.
  - inversion K as [E|h' ty' body' l' bytes' K1 K2 K3 K4 E|h' ty' body' l' bytes' K1 K2 K3 K4 E].
    { apply header_len in H1; destruct h; try discriminate; unfold zlen in H1; cbn in H1; lia. }
    all: destruct (header_det _ _ _ _ _ _ _ _ K1 H1 E) as (-> & -> & El & E');
      apply app_eq_len in E'; try (unfold zlen in El; lia); destruct E' as (-> & ->).
    + f_equal. auto.
    + lia.
  - inversion K as [E|h' ty' body' l' bytes' K1 K2 K3 K4 E|h' ty' body' l' bytes' K1 K2 K3 K4 E].
    { apply header_len in H1; destruct h; try discriminate; unfold zlen in H1; cbn in H1; lia. }
    all: destruct (header_det _ _ _ _ _ _ _ _ K1 H1 E) as (-> & -> & El & E');
      apply app_eq_len in E'; try (unfold zlen in El; lia); destruct E' as (-> & ->).
    + lia.
    + f_equal. auto.
Qed.
Lemma frames_app B l1 b1 l2 b2 : Frames B l1 b1 -> Frames B l2 b2 -> Frames B (l1 ++ l2) (b1 ++ b2).
Proof.
  induction 1; intro K; auto; cbn [app]; rewrite <- !app_assoc; constructor; auto.
Qed.

(** ** The client *)
Lemma items_app a b : items (a ++ b) = items a ++ items b.
Proof. apply flat_map_app. Qed.
Lemma no_rx_items t : no_rx t -> items t = [] /\ ins t = [].
Proof.
  induction t as [|e t IH]; auto. intro H. change (e :: t) with ([e] ++ t) in H. apply no_rx_app in H. destruct H as (H & K).
  destruct (IH K) as (E1 & E2). destruct e; cbn in *; auto; discriminate.
Qed.
Lemma recv_items t : recv_only t -> items t = [].
Proof.
  induction t as [|e t IH]; auto. unfold recv_only in *. cbn. destruct e; cbn; auto; discriminate.
Qed.

Section Framing.
Variable G : cfg.
(** The bytes pending before and received meanwhile are the packets handled or
    skipped meanwhile and the bytes pending afterwards. *)
Definition framed (s s' : st) (t : list ev) : Prop :=
  zlen (x_buf (s_ctx s')) = zlen (x_buf (s_ctx s)) /\ rx_ok G s' /\
  e_in (s_env s) = ins t ++ e_in (s_env s') /\
  exists bytes, Frames (zlen (x_buf (s_ctx s))) (items t) bytes /\
    pend (s_ctx s) ++ ins t = bytes ++ pend (s_ctx s').
Lemma framed_trans s1 s2 s3 t1 t2 : framed s1 s2 t1 -> framed s2 s3 t2 -> framed s1 s3 (t1 ++ t2).
Proof.
  intros (A1 & A2 & A3 & b1 & A4 & A5) (B1 & B2 & B3 & b2 & B4 & B5). split; [congruence|]. split; auto.
  rewrite ins_app, items_app. split; [rewrite A3, B3; apply app_assoc|].
  exists (b1 ++ b2). split; [apply frames_app; auto; rewrite <- A1; auto|].
  rewrite app_assoc, A5, <- !app_assoc. now rewrite B5.
Qed.
Lemma framed_quiet s s' t : rx_ok G s -> same_rx s s' -> no_rx t -> framed s s' t.
Proof.
  intros Hr Hs Ht. pose proof (same_rx_ok _ _ _ Hs Hr) as Hr'. destruct (no_rx_items _ Ht) as (E1 & E2).
  destruct Hs as (F1 & F2 & F3 & F4). unfold framed. rewrite F1, E1, E2, F3. repeat (split; [auto; reflexivity|]).
  exists []. split; [constructor|]. rewrite app_nil_r. unfold pend. now rewrite F1, F2.
Qed.
Lemma framed_path s s' t : rx_ok G s -> Path false s s' t -> framed s s' t.
Proof. intros Hr H. apply path_same_rx in H. apply framed_quiet; tauto. Qed.

Lemma emptied_pend c : pend (emptied c) = []. Proof. reflexivity. Qed.
Lemma ins_cons_drop a b t : ins (EDrop a b :: t) = ins t. Proof. reflexivity. Qed.

Lemma acted_framed mk st s s' t : rx_ok G s -> cbs_ok false s -> acted G mk st s s' t -> st <> RecvFailed -> framed s s' t.
Proof.
  intros Hr Hd (hs & type & rem & hdr & Hh & H) Hst. cbv zeta in H.
  destruct H as [(_ & _ & -> & ->)|[(-> & Hl & st2 & H & E)|[(_ & _ & _ & -> & ->)|(-> & Hl & data & st2 & s3 & t2 & s4 & -> & H1 & H2 & -> & E & H)]]].
  - apply framed_path; auto. constructor.
  - destruct (got_header_range _ _ _ _ _ _ Hr Hh eq_refl) as (G1 & G2 & G3 & G4 & h & rest & Ep & Hhd & El).
    pose proof Hr as (R0 & R1 & R2 & R3 & R4).
    apply discardStoredPacket_spec in H; [|lia|exact R1].
    destruct H as (_ & bs & err & s1 & t1 & H & -> & -> & Hbl & K).
    destruct K as [(-> & _)|(-> & -> & Hbs)]; [subst st; contradiction|].
    pose proof (soaked_len _ _ _ _ _ H) as Hsl. destruct H as (I1 & I2 & I3 & I4 & b & I5 & _ & I6 & I7).
    assert (Eb : zlen (x_buf (emptied (s_ctx s1))) = zlen (x_buf (s_ctx s))).
    { unfold emptied, zlen in *. cbn [set_index set_buf x_buf]. rewrite repeat_length. exact Hsl. }
    unfold framed. cbn [s_ctx s_env]. split; [exact Eb|]. rewrite ins_cons_drop, I1.
    split.
    { unfold rx_ok. cbn [s_ctx s_env]. rewrite Eb, emptied_pend. unfold emptied. cbn [set_index x_index].
      pose proof (CoreProofs.zlen_nonneg (x_buf (s_ctx s))). repeat split; try lia; [constructor|].
      rewrite I3 in R4. apply Forall_app in R4. apply R4. }
    split; [exact I3|]. exists (h ++ (rest ++ bs) ++ []).
    assert (Hz : rem = zlen (rest ++ bs)).
    { pose proof (pend_len _ _ Hr) as P. rewrite Ep, CoreProofs.zlen_app in P. rewrite CoreProofs.zlen_app. lia. }
    split.
    + change (items (EDrop type rem :: t1)) with (Skipped type rem :: items t1). rewrite (recv_items _ I2).
      rewrite Hz. constructor; [rewrite <- Hz; exact Hhd|rewrite <- Hz; lia|constructor].
    + rewrite emptied_pend, !app_nil_r, Ep, <- app_assoc. reflexivity.
  - apply framed_path; auto. constructor.
  - destruct (got_header_range _ _ _ _ _ _ Hr Hh eq_refl) as (G1 & G2 & G3 & G4 & h & rest & Ep & Hhd & El).
    pose proof Hr as (R0 & R1 & R2 & R3 & R4).
    pose proof (dispatch_path G false _ _ _ _ _ Hd _ _ _ H1) as P1. apply path_same_rx in P1. destruct P1 as (P1 & N1).
    pose proof (same_rx_ok _ _ _ P1 Hr) as Hr3.
    assert (Ei : x_index (s_ctx s3) = x_index (s_ctx s)) by apply P1.
    apply shift_spec in H2; [|exact Hr3|lia]. destruct H2 as (-> & _).
    assert (Hlast : exists l r e', s' = mkSt (set_lastRx (shifted (s_ctx s3) (rem + hdr)) r) (env_times e' l) /\ e_in e' = e_in (s_env s3)).
    { destruct (status_beq st2 Success).
      - destruct H as (n & l & _ & ->). exists l, (u32 n), (s_env s3). auto.
      - subst s'. exists (e_times (s_env s3)), (x_lastRx (shifted (s_ctx s3) (rem + hdr))), (s_env s3).
        split; auto. destruct s3 as [[] []]; reflexivity. }
    destruct Hlast as (l & r & e' & -> & He).
    destruct (shifted_pend G (rem + hdr) s3 e' Hr3 ltac:(lia) He) as (Q1 & Q2 & Q3).
    destruct P1 as (F1 & F2 & F3 & F4).
    unfold framed. cbn [s_ctx s_env]. destruct (no_rx_items _ N1) as (E1 & E2).
    split; [change (x_buf (set_lastRx ?c ?x)) with (x_buf c); rewrite Q3, F1; reflexivity|].
    split; [exact Q1|].
    change (ins (EPkt ?a ?b :: t2)) with (ins t2). rewrite E2.
    split; [cbn [e_in env_times app]; congruence|].
    change (items (EPkt ?a ?b :: t2)) with (Whole a b :: items t2). rewrite E1.
    change (pend (set_lastRx ?c ?x)) with (pend c). rewrite Q2.
    replace (pend (s_ctx s3)) with (pend (s_ctx s)) by (unfold pend; now rewrite F1, F2).
    assert (Ed : firstn (Z.to_nat rem) (skipn (Z.to_nat hdr) (x_buf (s_ctx s))) = firstn (Z.to_nat rem) rest).
    { assert (Er : rest = skipn (Z.to_nat hdr) (pend (s_ctx s))).
      { rewrite Ep. symmetry. apply skipn_app_exact. unfold zlen in El. lia. }
      rewrite Er. unfold pend. rewrite skipn_firstn_comm, firstn_firstn. f_equal. lia. }
    rewrite Ed. set (body := firstn (Z.to_nat rem) rest) in *.
    assert (Hrest : rest = body ++ skipn (Z.to_nat rem) rest) by (symmetry; apply firstn_skipn).
    assert (Lr : rem <= zlen rest).
    { pose proof (pend_len _ _ Hr) as P. rewrite Ep, CoreProofs.zlen_app in P. lia. }
    assert (Lb : zlen body = rem) by (apply SerProofs.zlen_firstn; lia).
    exists (h ++ body ++ []). split.
    + constructor; [rewrite Lb; exact Hhd|lia|constructor].
    + rewrite Ep, !app_nil_r. rewrite <- app_assoc. f_equal.
      replace (Z.to_nat (rem + hdr)) with (length h + Z.to_nat rem)%nat by (unfold zlen in El; lia).
      rewrite skipn_app. rewrite (skipn_all2 h) by lia. cbn [app].
      replace (length h + Z.to_nat rem - length h)%nat with (Z.to_nat rem) by lia. exact Hrest.
Qed.
Lemma arrived_framed bs s s1 : rx_ok G s -> arrived bs s s1 -> framed s s1 [EIn bs].
Proof.
  intros Hr A. destruct (arrived_pend _ _ _ _ Hr A) as (Hr1 & Ep). pose proof Hr as (_ & R & _).
  destruct A as (A1 & A2 & A3 & A4). unfold framed. rewrite A3 at 1. cbn [set_index set_buf x_buf].
  split; [apply store_at_len; lia|]. split; auto. cbn [ins flat_map app]. rewrite app_nil_r. split; auto.
  exists []. split; [constructor|]. now rewrite Ep.
Qed.
Lemma arrived_cbs d bs s s1 : arrived bs s s1 -> cbs_ok d s -> cbs_ok d s1.
Proof. intros (_ & (rv & a & E & _) & _). unfold cbs_ok. rewrite E. auto. Qed.

Lemma iteration_framed mk s st s' t : rx_ok G s -> cbs_ok false s ->
  receiveSingleIteration G mk s = Ret st s' t -> st <> RecvFailed -> framed s s' t.
Proof.
  intros Hr Hd H Hst. apply iteration_spec in H; auto.
  destruct H as [(-> & _)|(bs & s1 & k & s2 & t2 & t3 & A & -> & Hk & H)]; [contradiction|].
  pose proof (arrived_framed _ _ _ Hr A) as F1. assert (Hr1 : rx_ok G s1) by apply F1.
  assert (P : Path false s1 s2 t2).
  { destruct ((zlen bs =? 0) && mk); [eapply keepAlive_path; eauto|]. destruct Hk as (_ & -> & ->). constructor. }
  pose proof (framed_path _ _ _ Hr1 P) as F2.
  change (EIn bs :: t2 ++ t3) with ([EIn bs] ++ t2 ++ t3). eapply framed_trans; [exact F1|]. eapply framed_trans; [exact F2|].
  destruct H as [(_ & _ & -> & ->)|(-> & H)].
  - apply framed_path; [apply F2|constructor].
  - eapply acted_framed; eauto; [apply F2|]. eapply path_cbs; [exact P|]. eapply arrived_cbs; eauto.
Qed.
End Framing.
