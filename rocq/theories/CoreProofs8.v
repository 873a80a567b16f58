(** One iteration of the receive loops. *)
From Verif Require Import Base StateModel StateSpec StateHarness SerModel WireSpec SerProofs SerProofs3
  CoreModel CoreHarness CoreProofs CoreProofs2 CoreProofs3 CoreProofs5 CoreProofs6 CoreProofs7.

(** the bytes [bs] were appended to them *)
Definition arrived (bs : list Z) (s s1 : st) : Prop :=
  e_in (s_env s) = bs ++ e_in (s_env s1) /\
  (exists rv a, s_env s1 = env_recv (s_env s) (e_in (s_env s1)) rv /\ e_recvs (s_env s) = a :: rv) /\
  s_ctx s1 = set_index (set_buf (s_ctx s) (store_at (x_buf (s_ctx s)) (x_index (s_ctx s)) bs))
               (x_index (s_ctx s) + zlen bs) /\
  x_index (s_ctx s) + zlen bs <= zlen (x_buf (s_ctx s)).

Section Iter.
Variable G : cfg.
(** size_t has at least 32 bits; the buffer fits in memory; the counters are in range *)
Definition rx_ok (s : st) : Prop :=
  4294967296 <= g_M G /\ 0 <= x_index (s_ctx s) <= zlen (x_buf (s_ctx s)) /\ zlen (x_buf (s_ctx s)) < g_M G /\
  bytes_ok (pend (s_ctx s)) /\ bytes_ok (e_in (s_env s)).

Lemma pend_len s : rx_ok s -> zlen (pend (s_ctx s)) = x_index (s_ctx s).
Proof. intros (_ & H & _). unfold pend. apply SerProofs.zlen_firstn. lia. Qed.
Lemma arrived_pend bs s s1 : rx_ok s -> arrived bs s s1 -> rx_ok s1 /\ pend (s_ctx s1) = pend (s_ctx s) ++ bs.
Proof.
  intros (H0 & H1 & H2 & H3 & H4) (A1 & A2 & A3 & A4).
  assert (E : pend (s_ctx s1) = pend (s_ctx s) ++ bs).
  { unfold pend. rewrite A3. cbn [set_index set_buf x_index x_buf]. now apply store_at_prefix. }
  split; auto. unfold rx_ok. rewrite E, A3. cbn [set_index set_buf x_index x_buf].
  rewrite A1 in H4. apply Forall_app in H4. destruct H4 as (H4 & H5). pose proof (CoreProofs.zlen_nonneg bs).
  rewrite store_at_len by lia. repeat split; auto; try lia. apply Forall_app. auto.
Qed.

(** ** Steps that do not touch the receive side *)
Definition same_rx (s s' : st) : Prop :=
  x_buf (s_ctx s') = x_buf (s_ctx s) /\ x_index (s_ctx s') = x_index (s_ctx s) /\
  e_in (s_env s') = e_in (s_env s) /\ e_recvs (s_env s') = e_recvs (s_env s).
Definition is_rx (e : ev) : bool := match e with EIn _ | EInErr | EPkt _ _ | EDrop _ _ => true | _ => false end.
Definition no_rx (t : list ev) : Prop := forallb (fun e => negb (is_rx e)) t = true.
Lemma no_rx_app a b : no_rx (a ++ b) <-> no_rx a /\ no_rx b.
Proof. unfold no_rx. rewrite forallb_app, andb_true_iff. tauto. Qed.
Lemma send_no_rx t : send_only t -> no_rx t.
Proof.
  unfold send_only, no_rx. rewrite !forallb_forall. intros H x Hx. specialize (H x Hx). destruct x; cbn in *; congruence.
Qed.
Lemma silent_no_rx t : silent t -> no_rx t.
Proof.
  unfold silent, no_rx. rewrite !forallb_forall. intros H x Hx. specialize (H x Hx). destruct x; cbn in *; congruence.
Qed.
Lemma broke_fields c : x_buf (transport_broke c) = x_buf c /\ x_index (transport_broke c) = x_index c /\
  x_recs (transport_broke c) = x_recs c /\ x_retr (transport_broke c) = x_retr c.
Proof. unfold transport_broke. destruct (cstatus_beq _ _); auto. Qed.
Lemma sentb_same_rx bs s ok s' t : sentb bs s ok s' t -> same_rx s s' /\ no_rx t.
Proof.
  intros (k & l & _ & _ & Q3 & (a & b & Q4) & _ & _ & Q7). split; [|now apply send_no_rx].
  unfold same_rx. rewrite Q4. destruct Q7 as [(_ & ->)|(_ & _ & ->)]; [repeat split|].
  pose proof (broke_fields (set_lastTx (s_ctx s) l)) as (-> & -> & _). repeat split.
Qed.
Lemma path_same_rx s s' t : Path false s s' t -> same_rx s s' /\ no_rx t.
Proof.
  induction 1 as [s|s1 s2 s3 t1 t2 A H (IH1 & IH2)]; [repeat split|].
  assert (K : same_rx s1 s2 /\ no_rx t1).
  { destruct A.
    - destruct H0 as (_ & ? & ? & _), H1 as (? & ? & _). split; [repeat split; auto|now apply silent_no_rx].
    - repeat split.
    - eapply sentb_same_rx; eauto.
    - repeat split.
    - discriminate. }
  destruct K as ((E1 & E2 & E3 & E4) & K2). destruct IH1 as (F1 & F2 & F3 & F4).
  split; [|apply no_rx_app; auto]. repeat split; congruence.
Qed.
Lemma same_rx_ok s s' : same_rx s s' -> rx_ok s -> rx_ok s'.
Proof. intros (E1 & E2 & E3 & E4). unfold rx_ok, pend. now rewrite E1, E2, E3. Qed.

(** ** Dropping the handled packet from the buffer *)
Definition shifted (c : context) (total : Z) : context :=
  set_buf (set_index c (x_index c - total))
    (store_at (x_buf c) 0 (sub (x_buf c) total (x_index c - total))).
Lemma shift_spec total s u s' t : rx_ok s -> 0 <= total <= x_index (s_ctx s) ->
  shift_buffer G total s = Ret u s' t -> s' = mkSt (shifted (s_ctx s) total) (s_env s) /\ t = [].
Proof.
  intros (H0 & H1 & H2 & _) Ht H. unfold shift_buffer in H. mgo H. split; auto. unfold shifted.
  cbn [set_index x_index x_buf]. rewrite Z.mod_small by lia. reflexivity.
Qed.
Lemma shift_safe total s : rx_ok s -> 0 <= total <= x_index (s_ctx s) -> safe (shift_buffer G total) s.
Proof.
  intros (H0 & H1 & H2 & _) Ht. unfold shift_buffer. apply safe_bind; [safe1|]. intros u s1 t1 E1. mgo E1.
  apply safe_bind; [safe1|]. intros c s2 t2 E2. mgo E2. cbn [s_ctx set_index x_index x_buf].
  apply safe_bind; [|intros; safe1]. apply safe_massert. rewrite Z.mod_small; lia.
Qed.
Lemma shifted_pend total s e' : rx_ok s -> 0 <= total <= x_index (s_ctx s) -> e_in e' = e_in (s_env s) ->
  rx_ok (mkSt (shifted (s_ctx s) total) e') /\
  pend (shifted (s_ctx s) total) = skipn (Z.to_nat total) (pend (s_ctx s)) /\
  zlen (x_buf (shifted (s_ctx s) total)) = zlen (x_buf (s_ctx s)).
Proof.
  intros (H0 & H1 & H2 & H3 & H4) Ht He. set (c := s_ctx s) in *.
  assert (Ls : zlen (sub (x_buf c) total (x_index c - total)) = x_index c - total).
  { unfold sub. rewrite SerProofs.zlen_firstn; auto. rewrite zlen_skipn. unfold zlen in *. lia. }
  assert (Ep : pend (shifted c total) = skipn (Z.to_nat total) (pend c)).
  { unfold pend at 1, shifted. cbn [set_buf set_index x_index x_buf].
    replace (Z.to_nat (x_index c - total)) with (length (sub (x_buf c) total (x_index c - total))) at 1
      by (unfold zlen in *; lia).
    rewrite store_at_0 by lia. unfold sub, pend. rewrite skipn_firstn_comm. f_equal. lia. }
  assert (El : zlen (x_buf (shifted c total)) = zlen (x_buf c)).
  { unfold shifted. cbn [set_buf set_index x_buf]. apply store_at_len; lia. }
  split; [|auto]. unfold rx_ok. cbn [s_ctx s_env]. rewrite Ep, El, He. unfold shifted at 1 2. cbn [set_buf set_index x_index].
  repeat split; auto; try lia. unfold bytes_ok in *. rewrite Forall_forall in *. intros x Hx. apply H3.
  rewrite <- (firstn_skipn (Z.to_nat total) (pend c)). apply in_app_iff. auto.
Qed.

(** ** The iteration *)
(** what one iteration did with the header (hs, type, rem, hdr) of the bytes present *)
Definition got_header (c : context) (hs : status) (type rem hdr : Z) : Prop :=
  hdr_dec (pend c) = (hs, if status_beq hs Success then Some (type, rem, hdr) else None).
Definition final (st : status) : status := if status_beq st NoDataAvailable then Success else st.
Definition acted (mk : bool) (res : status) (s s' : st) (t : list ev) : Prop :=
  exists hs type rem hdr, got_header (s_ctx s) hs type rem hdr /\
  let total := rem + hdr in
  (hs <> Success /\ res = final hs /\ s' = s /\ t = [] \/
   hs = Success /\ zlen (x_buf (s_ctx s)) < total /\
     (exists st2, discardStoredPacket G type rem hdr s = Ret st2 s' t /\ res = final st2) \/
   hs = Success /\ x_index (s_ctx s) < total <= zlen (x_buf (s_ctx s)) /\ res = NeedMoreBytes /\ s' = s /\ t = [] \/
   hs = Success /\ total <= x_index (s_ctx s) /\
     exists data st2 s3 t2 s4,
       data = skipn (Z.to_nat hdr) (x_buf (s_ctx s)) /\
       dispatch G type rem data mk s = Ret st2 s3 t2 /\
       shift_buffer G total s3 = Ret tt s4 [] /\
       t = EPkt type (firstn (Z.to_nat rem) data) :: t2 /\ res = final st2 /\
       (if status_beq st2 Success
        then exists n l, e_times (s_env s4) = n :: l /\
          s' = mkSt (set_lastRx (s_ctx s4) (u32 n)) (env_times (s_env s4) l)
        else s' = s4)).

Lemma got_header_range s hs ty rl hl : rx_ok s -> got_header (s_ctx s) hs ty rl hl ->
  hs = Success -> 0 <= rl <= max_remaining /\ 2 <= hl <= 5 /\ rl + hl < 4294967296 /\ hl <= x_index (s_ctx s) /\
    exists h rest, pend (s_ctx s) = h ++ rest /\ header h ty rl /\ hl = zlen h.
Proof.
  intros Hr H ->. unfold got_header in H. cbn [status_beq] in H. pose proof Hr as (_ & Hi & _ & Hb & _).
  apply hdr_success_iff in H; auto. destruct H as (h & rest & E & Hh & ->).
  pose proof Hh as (Hf & Hl & Eh). apply header_bytes in Hh. destruct Hh as (_ & Hh).
  assert (1 <= zlen (varlen rl) <= 4) by (unfold varlen; destruct (rl <? 128); [|destruct (rl <? 16384); [|destruct (rl <? 2097152)]]; unfold zlen; cbn [length]; lia).
  pose proof (pend_len _ Hr) as L. rewrite E, CoreProofs.zlen_app in L. pose proof (CoreProofs.zlen_nonneg rest).
  unfold max_remaining in *. repeat split; try lia. exists h, rest. split; [exact E|]. split; [|reflexivity]. split; [exact Hf|]. split; [exact Hl|exact Eh].
Qed.

Lemma iteration_spec mk s st s' t : rx_ok s -> receiveSingleIteration G mk s = Ret st s' t ->
  (st = RecvFailed /\ t = [EInErr] /\ s_ctx s' = transport_broke (s_ctx s) /\
     exists rv a, s_env s' = env_recv (s_env s) (e_in (s_env s)) rv /\ e_recvs (s_env s) = a :: rv) \/
  exists bs s1 k s2 t2 t3, arrived bs s s1 /\ t = EIn bs :: t2 ++ t3 /\
    (if (zlen bs =? 0) && mk then handleKeepAlive G s1 = Ret k s2 t2 else k = Success /\ s2 = s1 /\ t2 = []) /\
    (k <> Success /\ st = final k /\ s' = s2 /\ t3 = [] \/ k = Success /\ acted mk st s2 s' t3).
Proof.
  intros Hr H. unfold receiveSingleIteration in H.
  apply bind_inv in H. destruct H as (c & sx & tx & ty & H1 & H & ->). mgo H1.
  apply bind_inv in H. destruct H as (r & s1 & t1 & t2 & H1 & H & ->).
  pose proof Hr as (R0 & R1 & R2 & R3 & R4).
  apply recv_into_inv in H1. destruct H1 as (_ & _ & Hroom & [(Hx & -> & (rv & Ee & a & Ea) & Ec)|(bs & Hx & Hn & -> & Ei & (rv & Ee & a & Ea) & Ec)]).
  { left. replace (r <? 0) with true in H by lia. replace (r =? 0) with false in H by lia. cbn [andb] in H. mgo H.
    rewrite Ec. repeat split; eauto. }
  right. rewrite (Z.mod_small (_ - _)) in * by lia. subst r. pose proof (CoreProofs.zlen_nonneg bs).
  replace (zlen bs <? 0) with false in H by lia.
  set (s2 := mkSt (set_index (s_ctx s1) (x_index (s_ctx s) + zlen bs)) (s_env s1)).
  assert (A : arrived bs s s2).
  { unfold arrived, s2. cbn [s_env s_ctx]. rewrite Ec. repeat split; eauto; lia. }
  destruct (arrived_pend _ _ _ Hr A) as (Hr2 & Ep).
  apply bind_inv in H. destruct H as ((((hs, type), rem), hdr) & s3 & t3 & t4 & H1 & H & ->).
  assert (K : s3 = s2 /\ t3 = [] /\ got_header (s_ctx s2) hs type rem hdr).
  { destruct ((zlen bs =? 0) && (x_index (s_ctx s) =? 0)) eqn:E0.
    - assert (bs = []) as -> by (destruct bs; auto; unfold zlen in *; cbn in *; lia).
      mgo H1. assert (hs = NoDataAvailable) as -> by congruence. split; [|split; auto].
      + unfold s2. rewrite store_at_nil, set_buf_id in Ec by lia. change (zlen []) with 0. rewrite Z.add_0_r, <- Ec.
        destruct s1 as [[] ?]; reflexivity.
      + unfold got_header. cbn [status_beq]. apply hdr_nodata_iff. rewrite Ep.
        unfold pend. assert (x_index (s_ctx s) = 0) as -> by lia. reflexivity.
    - apply bind_inv in H1. destruct H1 as (u & s4 & t5 & t6 & H1 & H2 & ->). apply modc_inv in H1. destruct H1 as (-> & ->).
      replace (mkSt (set_index (s_ctx s1) ((x_index (s_ctx s1) + zlen bs) mod g_M G)) (s_env s1)) with s2 in H2.
      2: { unfold s2. f_equal. f_equal. replace (x_index (s_ctx s1)) with (x_index (s_ctx s)) by (rewrite Ec; reflexivity). symmetry. apply Z.mod_small. lia. }
      clearbody s2. mgo H2.
      rewrite pitl_eq in L; [|apply Hr2|apply Hr2]. fold (pend (s_ctx s2)) in L.
      split; auto. split; auto. unfold got_header.
      destruct (hdr_kinds (pend (s_ctx s2))) as [(ty & rl & hl & E)|[E|[E|E]]]; [apply Hr2|..];
        rewrite E in L |- *; injection L as <- <-;
        [replace type with ty by congruence; replace rem with rl by congruence; replace hdr with hl by congruence;
           replace hs with Success by congruence
        |replace hs with NoDataAvailable by congruence|replace hs with NeedMoreBytes by congruence
        |replace hs with BadResponse by congruence]; reflexivity. }
  destruct K as (-> & -> & Hh). clear H1.
  apply bind_inv in H. destruct H as (st1 & s3 & t5 & t6 & H1 & H & ->).
  apply bind_inv in H. destruct H as (c3 & s3' & t7 & t8 & H2 & H & ->). mgo H2.
  assert (K : exists k, (if (zlen bs =? 0) && mk then handleKeepAlive G s2 = Ret k s3 t5 else k = Success /\ s3 = s2 /\ t5 = []) /\
     st1 = if status_beq k Success then hs else k).
  { destruct ((zlen bs =? 0) && mk).
    - apply bind_inv in H1. destruct H1 as (k & s4 & t9 & t10 & H1 & H2 & ->). mgo H2. exists k. rewrite app_nil_r. auto.
    - mgo H1. exists Success. auto. }
  destruct K as (k & Hk & ->). clear H1.
  exists bs, s2, k, s3, t5, t8. split; [exact A|]. split; [cbn [app]; now rewrite ?app_nil_l|]. split; [exact Hk|].
  destruct (status_beq k Success) eqn:Ek.
  2: { left.
       assert (Nk : k <> Success) by (intros ->; discriminate).
       rewrite Ek in H. cbn [negb] in H. apply bind_inv in H. destruct H as (x & sx & t1 & t2 & H1 & H & ->). mgo H1.
       rewrite Ek in H. apply bind_inv in H. destruct H as (y & sy & t9 & t10 & H1 & H & ->). mgo H1. mgo H. auto. }
  right. split; [destruct k; discriminate || reflexivity|].
  assert (Hs3 : Path false s2 s3 t5).
  { destruct ((zlen bs =? 0) && mk); [eapply keepAlive_path; eauto|]. destruct Hk as (_ & -> & ->). constructor. }
  apply path_same_rx in Hs3. destruct Hs3 as (Hs3 & _). pose proof (same_rx_ok _ _ Hs3 Hr2) as Hr3.
  assert (Hh3 : got_header (s_ctx s3) hs type rem hdr).
  { unfold got_header, pend in *. destruct Hs3 as (-> & -> & _). exact Hh. }
  exists hs, type, rem, hdr. split; [exact Hh3|]. cbv zeta.
  apply bind_inv in H. destruct H as (st2 & s4 & t1 & t2 & H1 & H & ->).
  apply bind_inv in H. destruct H as (st3 & s5 & t9 & t10 & H2 & H & ->). mgo H.
  destruct (status_beq hs Success) eqn:Eh.
  2: { left. cbn [negb] in H1. mgo H1. rewrite Eh in H2. mgo H2. split; [intros ->; discriminate|]. auto. }
  assert (hs = Success) as -> by (destruct hs; discriminate || reflexivity). cbn [negb] in H1. right.
  destruct (zlen (x_buf (s_ctx s3)) <? rem + hdr) eqn:El.
  { left. split; auto. split; [lia|]. exists st2.
    assert (K : st2 <> Success).
    { destruct (got_header_range _ _ _ _ _ Hr3 Hh3 eq_refl) as (G1 & G2 & G3 & G4 & _).
      apply discardStoredPacket_spec in H1; [|lia|apply Hr3].
      destruct H1 as (_ & b & e & x & y & _ & _ & _ & _ & [(-> & _)|(-> & _)]); discriminate. }
    assert (Eb : status_beq st2 Success = false) by (destruct st2; congruence || reflexivity).
    rewrite Eb in H2. mgo H2. rewrite !app_nil_r. auto. }
  right. destruct (x_index (s_ctx s3) <? rem + hdr) eqn:Ei2.
  { left. mgo H1. cbn [status_beq] in H2. mgo H2. repeat split; auto; lia. }
  right. apply ret_inv in H1. destruct H1 as (-> & -> & ->). cbn [status_beq] in H2. split; auto. split; [lia|].
  exists (skipn (Z.to_nat hdr) (x_buf (s_ctx s3))).
  apply bind_inv in H2. destruct H2 as (c4 & s6 & t11 & t12 & H2 & H3 & ->). apply getc_inv in H2. destruct H2 as (-> & -> & ->).
  apply bind_inv in H3. destruct H3 as (u & s6 & t13 & t14 & H2 & H3 & ->). apply emit_inv in H2. destruct H2 as (-> & ->).
  apply bind_inv in H3. destruct H3 as (st2 & s7 & t2 & t15 & H2 & H3 & ->).
  apply bind_inv in H3. destruct H3 as (u2 & s8 & t16 & t17 & H4 & H3 & ->).
  assert (t16 = []) as ->. { clear - H4. unfold shift_buffer in H4. mgo H4. reflexivity. }
  exists st2, s7, t2, s8. destruct u2. split; [reflexivity|]. split; [exact H2|]. split; [exact H4|].
  apply bind_inv in H3. destruct H3 as (u3 & s9 & t18 & t19 & H3 & H5 & ->). apply ret_inv in H5. destruct H5 as (-> & -> & ->).
  destruct (status_beq st2 Success).
  - mgo H3. cbn [app]. rewrite !app_nil_r. split; [reflexivity|]. split; [reflexivity|]. eauto.
  - apply ret_inv in H3. destruct H3 as (_ & -> & ->). cbn [app]. rewrite !app_nil_r. auto.
Qed.
End Iter.
