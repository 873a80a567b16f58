(** The same for the server that sends messages. *)
From Verif Require Import Base StateSpec SerModel WireSpec SerHarness CoreModel CoreHarness Machine MachSpec NetSpec OutSpec InSpec ConcModel CoreSpec WireProofs ByteSpec FullSpec.

(** the server makes the same of [p] and of what it reads *)
Definition good (p : cpkt) : Prop :=
  exists q, standard q /\ bytes q = bytes p /\ asks_in q = asks_in p /\ forall v rep v', takes v q rep v' -> takes v p rep v'.
Record part : Type := mkP { q_s : strm; q_ps : list cpkt; q_x : list Z }.
Definition cat (ps : list cpkt) : list Z := concat (map bytes ps).
Definition first_opens (ps : list cpkt) : bool := match ps with p :: _ => asks_in p | [] => false end.
Definition calm_tail (e : part) : Prop := existsb asks_in (tl (q_ps e)) = false.
Record srel (e : part) : Prop := mkSr {
  sr_good : Forall good (q_ps e);
  sr_cut : cut (q_x e);
  sr_all : t_alive (q_s e) = true -> t_bytes (q_s e) = cat (q_ps e) ++ q_x e;
  sr_pre : prefix (t_bytes (q_s e)) (cat (q_ps e) ++ q_x e);
  sr_tail : calm_tail e }.
Lemma cat_app a b : cat (a ++ b) = cat a ++ cat b.
Proof. unfold cat. now rewrite map_app, concat_app. Qed.
Lemma front q r e : standard q -> srel e -> t_bytes (q_s e) = bytes q ++ r ->
  exists p ps z, q_ps e = p :: ps /\ good p /\ bytes q = bytes p /\ asks_in q = asks_in p /\ (forall v rep v', takes v q rep v' -> takes v p rep v') /\
    r ++ z = cat ps ++ q_x e /\ (t_alive (q_s e) = true -> z = []).
Proof.
  intros Hq [H1 H2 H3 (z & H4) H5] E. rewrite E, <- app_assoc in H4. destruct (q_ps e) as [|p ps] eqn:Ep.
  - exfalso. cbn [cat map concat app] in H4. eapply cut_whole; [exact Hq|exact H2|symmetry; exact H4].
  - inversion H1 as [|? ? Hp Hps]; subst. destruct Hp as (q0 & A1 & A2 & A3 & A4). unfold cat in H4. cbn [map concat] in H4. rewrite <- app_assoc, <- A2 in H4.
    apply bytes_split in H4; auto. destruct H4 as (<- & H4). exists p, ps, z. split; auto. split; [exists q0; auto|]. split; auto. split; auto. split; auto. split; [symmetry; exact H4|].
    intro Ha. specialize (H3 Ha). rewrite E in H3. unfold cat in H3. cbn [map concat] in H3. rewrite <- app_assoc, <- A2 in H3. apply app_inv_head in H3. unfold cat in H4. rewrite <- H3 in H4.
    rewrite <- (app_nil_r r) in H4 at 1. now apply app_inv_head in H4.
Qed.
Lemma good_cut p b c : good p -> bytes p = b ++ c -> c <> [] -> cut b.
Proof. intros (q & A1 & A2 & _) E H. exists q, c. split; auto. split; auto. congruence. Qed.

(** ** The relation *)
Record Sim (F : hnet) (B : binet) (lv : bool) (junk : list cpkt) (L : list part) (e : part) : Prop := mkSim {
  si_up : h_up F = map q_s (L ++ [e]);
  si_bup : bi_up B = junk ++ concat (map q_ps (L ++ [e]));
  si_rel : Forall srel (L ++ [e]);
  si_srv : h_srv F = bi_srv B;
  si_read : h_read F = bi_read B;
  si_open : t_alive (q_s e) = true -> t_half (q_s e) = false -> bi_cut B = false;
  si_x : bi_cut B = false -> q_x e = [];
  si_rest : forall e' l, L ++ [e] = e' :: l -> junk = [] \/ q_ps e' = [] \/ first_opens (q_ps e') = true;
  si_later : forall e' l, L ++ [e] = e' :: l -> Forall (fun e => q_ps e = [] \/ first_opens (q_ps e) = true) l;
  si_lv : lv = true -> h_sent F = bi_sent B /\ h_ans F = bi_ans B /\
    (L <> [] -> first_opens (q_ps e) = true) /\ (L = [] -> junk = [] \/ first_opens (q_ps e) = true);
  si_none : lv = true -> h_ans F = None -> first_opens (q_ps e) = true \/ w_open (h_srv F) = false;
  si_dead : lv = false -> h_ans F = None /\ h_read F = [] /\ q_ps e = [] /\ bi_cut B = true }.
Lemma lose_junk k junk : forall u d c v a r, BLinked k (mkBI (junk ++ u) d c v a r) -> junk = [] \/ existsb asks_in u = true -> BLinked k (mkBI u d c v a r).
Proof.
  induction junk as [|p junk IH]; intros u d c v a r H K; auto. destruct K as [K|K]; [discriminate|]. apply IH; [|auto].
  eapply blinked_net; [exact H|]. apply (bw_lose_up [] p (junk ++ u)). intros _. rewrite existsb_app, K. apply orb_true_r.
Qed.
Lemma snoc_inv {A} (l : list A) a l' b : l ++ [a] = l' ++ [b] -> l = l' /\ a = b.
Proof. apply app_inj_tail. Qed.
Lemma map_snoc {A B} (f : A -> B) l : forall u s, map f l = u ++ [s] -> exists l' e, l = l' ++ [e] /\ map f l' = u /\ f e = s.
Proof.
  destruct l as [|x l _] using rev_ind; intros u s H; [destruct u; discriminate|]. rewrite map_app in H. apply app_inj_tail in H. destruct H. eauto.
Qed.
Lemma opens_concat (l : list part) e : first_opens (q_ps e) = true -> existsb asks_in (concat (map q_ps (l ++ [e]))) = true.
Proof.
  intro H. rewrite map_app, concat_app, existsb_app. apply orb_true_iff. right. cbn [map concat]. destruct (q_ps e) as [|p ps]; [discriminate|]. cbn [app existsb]. cbn in H. now rewrite H.
Qed.
Lemma srel_next p ps r z s x : srel (mkP s (p :: ps) x) -> r ++ z = cat ps ++ x -> (t_alive s = true -> z = []) -> srel (mkP (mkS r (t_alive s) (t_half s)) ps x).
Proof.
  intros [H1 H2 H3 H4 H5] E Hz. inversion H1; subst. constructor; cbn [q_s q_ps q_x t_bytes t_alive] in *; auto.
  - intro Ha. rewrite <- E, (Hz Ha), app_nil_r. reflexivity.
  - exists z. auto.
  - unfold calm_tail in *. cbn [q_ps tl] in *. destruct ps as [|p' ps]; auto. cbn [existsb tl] in *. apply orb_false_iff in H5. tauto.
Qed.
Lemma sim_serve k p r al ha ss d v a rd rep v' B lv junk L e : standard p -> takes v p rep v' ->
  BLinked k B -> Sim (mkH (mkS (bytes p ++ r) al ha :: ss) d v a rd) B lv junk L e ->
  exists B' lv' junk' L' e', BLinked k B' /\
    Sim (mkH (mkS r al ha :: ss) (if alone ss then d ++ rep else d) v' (if asks_in p && alone ss then Some (if w_open v then 1 else 0) else a) rd) B' lv' junk' L' e'.
Proof.
  intros Hp Hs HB [U1 U2 U3 U4 U5 U6 U7 U8 U9 U10 U12 U11]. cbn [h_up h_sent h_srv h_ans h_read] in *. subst v rd.
  assert (X : exists e0 l0, L ++ [e] = e0 :: l0) by (destruct L; cbn [app]; eauto). destruct X as (e0 & l0 & X). rewrite X in *. cbn [map] in U1. injection U1 as U1 Uss.
  inversion U3 as [|? ? R0 Rl]; subst.
  destruct (front p r e0 Hp R0) as (p0 & ps & z & F1 & F2 & F3 & F4 & F5 & F6 & F7); [rewrite <- U1; reflexivity|].
  specialize (F5 _ _ _ Hs). destruct e0 as [s0 ps0 x0]. cbn [q_s q_ps q_x] in *. subst ps0. assert (Ca : existsb asks_in ps = false) by exact (sr_tail _ R0).
  destruct B as [bu bd bc bv ba br]. cbn [bi_up bi_sent bi_cut bi_srv bi_ans bi_read] in *. subst bu. cbn [map concat] in HB. cbn [app] in HB.
  assert (HB1 : BLinked k (mkBI (p0 :: ps ++ concat (map q_ps l0)) bd bc bv ba br)).
  { apply lose_junk with (junk := junk); [exact HB|]. destruct (U8 _ _ eq_refl) as [K|[K|K]]; [now left|discriminate|]. right. cbn [first_opens q_ps] in K. cbn [existsb]. now rewrite K. }
  eapply blinked_net in HB1; [|apply bw_take; exact F5].
  assert (Sn : srel (mkP (mkS r al ha) ps x0)) by (subst s0; eapply (srel_next p0 ps r z (mkS _ al ha)); eauto).
  destruct L as [|e1 L1].
  - cbn [app] in X. injection X as -> <-. cbn [map alone] in *. cbn [concat] in HB1. rewrite app_nil_r, Ca in HB1. cbn [negb] in HB1.
    destruct lv; [|destruct (U11 eq_refl) as (_ & _ & C & _); discriminate]. destruct (U10 eq_refl) as (V1 & V2 & _ & _). subst d a.
    eexists _, true, [], [], (mkP (mkS r al ha) ps x0). split; [exact HB1|]. rewrite F4. constructor; cbn [h_up h_sent h_srv h_ans h_read bi_up bi_sent bi_cut bi_srv bi_ans bi_read app map concat q_s q_ps q_x t_alive t_half]; auto.
    + now rewrite app_nil_r.
    + subst s0. exact U6.
    + intros e' l E. injection E as <- <-. constructor.
    + intros _. repeat split; auto.
    + intros _ E. destruct (asks_in p0) eqn:Ep; [discriminate|]. right. cbn [andb] in E. destruct (U12 eq_refl E) as [C|C]; [cbn in C; congruence|]. inversion F5; subst; auto; discriminate.
    + discriminate.
  - cbn [app] in X. injection X as -> X. subst l0.
    assert (Ea : alone (map q_s (L1 ++ [e])) = false) by (destruct L1; reflexivity). rewrite Ea, andb_false_r.
    assert (G : exists bd' ba', BLinked k (mkBI (ps ++ concat (map q_ps (L1 ++ [e]))) bd' bc v' ba' br) /\ (lv = true -> bd' = bd /\ ba' = ba)).
    { destruct lv; [|eexists _, _; split; [exact HB1|discriminate]]. destruct (U10 eq_refl) as (_ & _ & V & _). specialize (V ltac:(discriminate)).
      assert (K : existsb asks_in (ps ++ concat (map q_ps (L1 ++ [e]))) = true) by (rewrite existsb_app, (opens_concat L1 e V); apply orb_true_r). rewrite K in HB1. cbn [negb] in HB1. rewrite andb_false_r in HB1. eauto. }
    destruct G as (bd' & ba' & G1 & G2). eexists _, lv, [], (mkP (mkS r al ha) ps x0 :: L1), e. split; [exact G1|].
    constructor; cbn [h_up h_sent h_srv h_ans h_read bi_up bi_sent bi_cut bi_srv bi_ans bi_read app map concat q_s q_ps q_x t_alive t_half]; auto.
    + intros e' l E. injection E as <- <-. exact (U9 _ _ eq_refl).
    + intro Hl. destruct (G2 Hl) as (-> & ->). destruct (U10 Hl) as (V1 & V2 & V3 & _). split; [exact V1|]. split; [exact V2|]. split; [intros _; apply V3; discriminate|intro C; discriminate].
    + intros Hl _. left. destruct (U10 Hl) as (_ & _ & V3 & _). apply V3. discriminate.
Qed.
Lemma sim_next k s s' ss d v a rd B lv junk L e : BLinked k B -> Sim (mkH (s :: s' :: ss) d v a rd) B lv junk L e ->
  exists B' lv' junk' L' e', BLinked k B' /\ Sim (mkH (s' :: ss) d v a rd) B' lv' junk' L' e'.
Proof.
  intros HB [U1 U2 U3 U4 U5 U6 U7 U8 U9 U10 U12 U11]. cbn [h_up h_sent h_srv h_ans h_read] in *.
  destruct L as [|e1 L1]; [discriminate|]. cbn [app map] in U1. injection U1 as U1 Uss. cbn [app] in *. inversion U3; subst.
  exists B, lv, (junk ++ q_ps e1), L1, e. split; auto. constructor; cbn [h_up h_sent h_srv h_ans h_read]; auto.
  - rewrite U2. cbn [map concat]. now rewrite <- app_assoc.
  - intros e' l E. right. specialize (U9 _ _ eq_refl). rewrite E in U9. now inversion U9.
  - intros e' l E. specialize (U9 _ _ eq_refl). rewrite E in U9. now inversion U9.
  - intro Hl. destruct (U10 Hl) as (V1 & V2 & V3 & _). specialize (V3 ltac:(discriminate)). auto 6.
Qed.
Lemma srel_break s r r' al ha ps x : srel (mkP s ps x) -> s = mkS (r ++ r') al ha -> srel (mkP (mkS r false ha) ps x).
Proof.
  intros [H1 H2 H3 (z & H4) H5] ->. constructor; cbn [q_s q_ps q_x t_bytes t_alive] in *; auto; [discriminate|]. exists (r' ++ z). now rewrite app_assoc.
Qed.
Lemma sim_break k s1 r r' al ha s2 d v a rd B lv junk L e : BLinked k B -> Sim (mkH (s1 ++ mkS (r ++ r') al ha :: s2) d v a rd) B lv junk L e ->
  exists B' lv' junk' L' e', BLinked k B' /\ Sim (mkH (s1 ++ mkS r false ha :: s2) d v a rd) B' lv' junk' L' e'.
Proof.
  intros HB [U1 U2 U3 U4 U5 U6 U7 U8 U9 U10 U12 U11]. cbn [h_up h_sent h_srv h_ans h_read] in *.
  destruct s2 as [|y s2 _] using rev_ind.
  - symmetry in U1. apply map_snoc in U1. destruct U1 as (l' & e' & E & E1 & E2). apply snoc_inv in E. destruct E as (<- & <-). destruct e as [s ps x]. cbn [q_s q_ps q_x] in *.
    exists B, lv, junk, L, (mkP (mkS r false ha) ps x). split; auto. constructor; cbn [h_up h_sent h_srv h_ans h_read q_s q_ps q_x t_alive]; auto.
    + rewrite map_app. cbn [map q_s]. now rewrite E1.
    + rewrite U2, !map_app. reflexivity.
    + apply Forall_app in U3. destruct U3 as (V1 & V2). apply Forall_app. split; auto. inversion V2; subst. constructor; auto. eapply srel_break; eauto.
    + discriminate.
    + intros e' l E. destruct L as [|e1 L1]; cbn [app] in *; injection E as <- <-; [apply (U8 _ _ eq_refl)|apply (U8 _ _ eq_refl)].
    + intros e' l E. destruct L as [|e1 L1]; cbn [app] in *; injection E as <- <-; [constructor|]. specialize (U9 _ _ eq_refl). apply Forall_app in U9. destruct U9 as (V1 & V2). apply Forall_app. split; auto. inversion V2; subst. constructor; auto.
  - rewrite app_comm_cons, app_assoc in U1. symmetry in U1. apply map_snoc in U1. destruct U1 as (l' & e' & E & E1 & E2). apply snoc_inv in E. destruct E as (<- & <-).
    apply map_eq_app in E1. destruct E1 as (L1 & L2 & -> & E1 & E3). destruct L2 as [|e2 L2]; [discriminate|]. cbn [map] in E3. injection E3 as E3 E4. destruct e2 as [s ps x]. cbn [q_s] in E3.
    exists B, lv, junk, (L1 ++ mkP (mkS r false ha) ps x :: L2), e. split; auto. constructor; cbn [h_up h_sent h_srv h_ans h_read]; auto.
    + rewrite !map_app. cbn [map q_s]. rewrite E1, E4, E2, <- app_assoc. reflexivity.
    + rewrite U2, !map_app. reflexivity.
    + apply Forall_app in U3. destruct U3 as (V1 & V2). apply Forall_app in V1. destruct V1 as (V1 & V3). inversion V3; subst. apply Forall_app. split; auto. apply Forall_app. split; auto. constructor; auto. eapply srel_break; eauto.
    + intros e' l E. destruct L1 as [|e1 L1]; cbn [app] in *; injection E as <- <-; apply (U8 _ _ eq_refl).
    + intros e' l E. destruct L1 as [|e1 L1]; cbn [app] in *; injection E as <- <-; [exact (U9 _ _ eq_refl)|]. specialize (U9 _ _ eq_refl). rewrite <- !app_assoc in *. cbn [app] in *. apply Forall_app in U9. destruct U9 as (V1 & V2). apply Forall_app. split; auto. inversion V2; subst. constructor; auto.
    + intro Hl. destruct (U10 Hl) as (V1 & V2 & V3 & V4). split; [exact V1|]. split; [exact V2|]. split; [intros _; apply V3; destruct L1; discriminate|destruct L1; discriminate].
Qed.
Lemma answered_up k B : BLinked k B -> bi_ans B <> None -> existsb asks_in (bi_up B) = false.
Proof.
  induction 1 as [|k B x B' HB IH S|k B B' HB IH S]; [reflexivity| |].
  - destruct S; cbn [bi_ans bi_up] in *; auto; try congruence. intro Ha. specialize (IH Ha). destruct c; auto. rewrite existsb_app, IH. cbn. now rewrite H.
  - destruct S; cbn [bi_ans bi_up] in *; auto.
    + intro Ha. destruct (asks_in p) eqn:Ep; cbn [andb] in Ha.
      * destruct (existsb asks_in u) eqn:Eu; auto. cbn [negb] in Ha. specialize (IH Ha). cbn [existsb] in IH. rewrite Ep in IH. discriminate.
      * specialize (IH Ha). cbn [existsb] in IH. now rewrite Ep in IH.
    + intro Ha. specialize (IH Ha). rewrite existsb_app in *. cbn [existsb] in IH. apply orb_false_iff in IH. destruct IH as (I1 & I2). apply orb_false_iff in I2. rewrite I1. apply I2.
Qed.
Lemma sim_other k ty body u d v a rd B lv junk L e : dpkt_ok (DOther ty body) -> sendable (ty, body) -> BLinked k B -> Sim (mkH u d v a rd) B lv junk L e ->
  exists B' lv' junk' L' e', BLinked k B' /\ Sim (mkH u (d ++ [DOther ty body]) v a rd) B' lv' junk' L' e'.
Proof.
  intros T3 T4 HB [U1 U2 U3 U4 U5 U6 U7 U8 U9 U10 U12 U11]. cbn [h_up h_sent h_srv h_ans h_read] in *. destruct B as [bu bd bc bv ba br]. cbn [bi_up bi_sent bi_cut bi_srv bi_ans bi_read] in *.
  exists (mkBI bu (bd ++ [DOther ty body]) bc bv ba br), lv, junk, L, e. split; [eapply blinked_net; [exact HB|now apply bw_other]|].
  constructor; cbn [h_up h_sent h_srv h_ans h_read bi_up bi_sent bi_cut bi_srv bi_ans bi_read]; auto. intro Hl. destruct (U10 Hl) as (V1 & V2 & V3 & V4). split; [congruence|]. auto.
Qed.
Lemma sim_new k m u d v a rd B lv junk L e : w_open v = true -> dpkt_ok (DPub m) -> pm_dup m = false -> flying v (pm_id m) = None -> BLinked k B -> Sim (mkH u d v a rd) B lv junk L e ->
  exists B' lv' junk' L' e', BLinked k B' /\
    Sim (mkH u (if answered a then d ++ [DPub m] else d) (mkSender (w_open v) (w_fly v ++ [(m, false)]) (w_due v) (w_log v ++ [m])) a rd) B' lv' junk' L' e'.
Proof.
  intros T1 T2 T3 T4 HB [U1 U2 U3 U4 U5 U6 U7 U8 U9 U10 U12 U11]. pose proof (answered_up _ _ HB) as K. cbn [h_up h_sent h_srv h_ans h_read] in *. destruct B as [bu bd bc bv ba br]. cbn [bi_up bi_sent bi_cut bi_srv bi_ans bi_read] in *. subst bv.
  eexists _, lv, junk, L, e. split; [eapply blinked_net; [exact HB|now apply (bw_new m)]|].
  constructor; cbn [h_up h_sent h_srv h_ans h_read bi_up bi_sent bi_cut bi_srv bi_ans bi_read w_open]; auto. intro Hl. destruct (U10 Hl) as (V1 & V2 & V3 & V4). split; [|auto]. subst d ba.
  destruct a as [y|]; cbn [answered]; [rewrite K; [reflexivity|discriminate]|]. destruct (U12 Hl eq_refl) as [C|C]; [|congruence].
  rewrite U2, existsb_app, (opens_concat L e C), orb_true_r. reflexivity.
Qed.
Lemma sim_again k id m rel u d v a rd B lv junk L e : In id (w_due v) -> flying v id = Some (m, rel) -> answered a = true -> BLinked k B -> Sim (mkH u d v a rd) B lv junk L e ->
  exists B' lv' junk' L' e', BLinked k B' /\
    Sim (mkH u (d ++ [if rel : bool then DRel id else DPub (as_dup m)]) (mkSender (w_open v) (w_fly v) (filter (fun x => negb (x =? id)) (w_due v)) (w_log v)) a rd) B' lv' junk' L' e'.
Proof.
  intros T1 T2 T3 HB [U1 U2 U3 U4 U5 U6 U7 U8 U9 U10 U12 U11]. pose proof (answered_up _ _ HB) as K. cbn [h_up h_sent h_srv h_ans h_read] in *. destruct B as [bu bd bc bv ba br]. cbn [bi_up bi_sent bi_cut bi_srv bi_ans bi_read] in *. subst bv.
  destruct a as [y|]; [|discriminate]. destruct lv; [|destruct (U11 eq_refl) as (C & _); discriminate]. destruct (U10 eq_refl) as (V1 & V2 & V3 & V4). subst d ba.
  eexists _, true, junk, L, e. split; [eapply blinked_net; [exact HB|apply (bw_again id m rel); auto; apply K; discriminate]|].
  constructor; cbn [h_up h_sent h_srv h_ans h_read bi_up bi_sent bi_cut bi_srv bi_ans bi_read w_open]; auto.
Qed.
Ltac sides := cbn [h_up h_sent h_srv h_ans h_read bi_up bi_sent bi_cut bi_srv bi_ans bi_read q_s q_ps q_x t_alive t_half t_bytes].
Lemma first_app l (e e' : part) x r : (l ++ [e]) ++ [e'] = x :: r -> exists r0, l ++ [e] = x :: r0 /\ r = r0 ++ [e'].
Proof. destruct l as [|y l]; cbn [app]; intro E; injection E as <- <-; eauto. Qed.
Lemma sim_connect k m u d v a rd B lv junk L e : good (KConnect m) -> BLinked k B -> Sim (mkH u d v a rd) B lv junk L e ->
  exists B' lv' junk' L' e', BLinked (k ++ [Sent (KConnect m)]) B' /\ Sim (mkH (u ++ [mkS (bytes (KConnect m)) true false]) [] v None []) B' lv' junk' L' e'.
Proof.
  intros Hg HB [U1 U2 U3 U4 U5 U6 U7 U8 U9 U10 U12 U11]. cbn [h_up h_sent h_srv h_ans h_read] in *. destruct B as [bu bd bc bv ba br]. cbn [bi_up bi_sent bi_cut bi_srv bi_ans bi_read] in *.
  exists (mkBI (bu ++ [KConnect m]) [] false bv None []), true, junk, (L ++ [e]), (mkP (mkS (bytes (KConnect m)) true false) [KConnect m] []).
  split; [eapply blinked_client; [exact HB|apply bk_connect]|]. constructor; sides; auto.
  - rewrite (map_app q_s (L ++ [e])), <- U1. reflexivity.
  - rewrite (map_app q_ps (L ++ [e])), concat_app, U2, <- app_assoc. reflexivity.
  - apply Forall_app. split; auto. constructor; [|constructor]. constructor; cbn [q_s q_ps q_x t_alive t_bytes]; auto using cut_nil.
    + intros _. unfold cat. cbn [map concat]. now rewrite !app_nil_r.
    + exists []. unfold cat. cbn [map concat]. now rewrite !app_nil_r.
    + reflexivity.
  - intros e' l E. apply first_app in E. destruct E as (r0 & E & _). eauto.
  - intros e' l E. apply first_app in E. destruct E as (r0 & E & ->). apply Forall_app. split; [eauto|]. constructor; auto.
  - discriminate.
Qed.
Lemma sim_connect_cut k m er b c u d v a rd B lv junk L e : good (KConnect m) -> bytes (KConnect m) = b ++ c -> c <> [] -> BLinked k B -> Sim (mkH u d v a rd) B lv junk L e ->
  exists B' lv' junk' L' e', BLinked (k ++ [Cut (KConnect m) er]) B' /\ Sim (mkH (u ++ [mkS b (negb er) true]) [] v None []) B' lv' junk' L' e'.
Proof.
  intros Hg Eb Hc HB [U1 U2 U3 U4 U5 U6 U7 U8 U9 U10 U12 U11]. cbn [h_up h_sent h_srv h_ans h_read] in *. destruct B as [bu bd bc bv ba br]. cbn [bi_up bi_sent bi_cut bi_srv bi_ans bi_read] in *.
  exists (mkBI bu [] true bv None []), false, junk, (L ++ [e]), (mkP (mkS b (negb er) true) [] b).
  split; [eapply blinked_client; [exact HB|apply bk_connect_cut]|]. constructor; sides; auto; try discriminate.
  - rewrite (map_app q_s (L ++ [e])), <- U1. reflexivity.
  - rewrite (map_app q_ps (L ++ [e])), concat_app, U2. cbn [map concat q_ps]. now rewrite !app_nil_r.
  - apply Forall_app. split; auto. constructor; [|constructor]. constructor; cbn [q_s q_ps q_x t_alive t_bytes]; auto.
    + eapply good_cut; eauto.
    + exists []. cbn. now rewrite app_nil_r.
    + reflexivity.
  - intros e' l E. apply first_app in E. destruct E as (r0 & E & _). eauto.
  - intros e' l E. apply first_app in E. destruct E as (r0 & E & ->). apply Forall_app. split; [eauto|]. constructor; auto.
Qed.
Lemma last_of (L : list part) e u s : map q_s (L ++ [e]) = u ++ [s] -> u = map q_s L /\ s = q_s e.
Proof. rewrite map_app. intro E. apply app_inj_tail in E. destruct E. auto. Qed.
(** the last stream is changed *)
Lemma sim_last F B F' B' lv junk L e e' : Sim F B lv junk L e -> h_up F' = map q_s (L ++ [e']) -> bi_up B' = junk ++ concat (map q_ps (L ++ [e'])) -> srel e' ->
  h_srv F' = h_srv F -> h_read F' = h_read F -> h_sent F' = h_sent F -> h_ans F' = h_ans F ->
  bi_srv B' = bi_srv B -> bi_read B' = bi_read B -> bi_sent B' = bi_sent B -> bi_ans B' = bi_ans B ->
  (t_alive (q_s e') = true -> t_half (q_s e') = false -> bi_cut B' = false) -> (bi_cut B' = false -> q_x e' = []) -> (bi_cut B = true -> bi_cut B' = true) ->
  q_ps e' = q_ps e \/ lv = true /\ (exists p, q_ps e' = q_ps e ++ [p]) -> Sim F' B' lv junk L e'.
Proof.
  intros [U1 U2 U3 U4 U5 U6 U7 U8 U9 U10 U12 U11] A1 A2 A3 A4 A5 A6 A7 A8 A9 A10 A11 A12 A13 A14 A15.
  assert (Fo : first_opens (q_ps e) = true -> first_opens (q_ps e') = true).
  { destruct A15 as [->|(_ & p & ->)]; auto. destruct (q_ps e); [discriminate|auto]. }
  constructor; auto; try congruence.
  - apply Forall_app in U3. apply Forall_app. split; [tauto|]. constructor; auto.
  - intros e0 l E. destruct L as [|e1 L1]; cbn [app] in *; injection E as <- <-; [|exact (U8 _ _ eq_refl)].
    destruct (U8 _ _ eq_refl) as [K|[K|K]]; auto. destruct A15 as [->|(Hl & p & _)]; auto. destruct (U10 Hl) as (_ & _ & _ & V). destruct (V eq_refl); auto.
  - intros e0 l E. destruct L as [|e1 L1]; cbn [app] in *; injection E as <- <-; [constructor|]. specialize (U9 _ _ eq_refl). apply Forall_app in U9. destruct U9 as (V1 & V2). apply Forall_app. split; auto. constructor; auto.
    inversion V2 as [|? ? Ve ?]; subst. destruct Ve as [Ve|Ve]; auto. destruct A15 as [->|(Hl & p & _)]; auto. destruct (U10 Hl) as (_ & _ & V & _). right. apply Fo, V. discriminate.
  - intro Hl. destruct (U10 Hl) as (V1 & V2 & V3 & V4). split; [congruence|]. split; [congruence|]. split; [auto|]. intro C. destruct (V4 C); auto.
  - intros Hl En. rewrite A7 in En. rewrite A4. destruct (U12 Hl En); auto.
  - intro Hl. destruct (U11 Hl) as (V1 & V2 & V3 & V4). split; [congruence|]. split; [congruence|]. split; [|auto]. destruct A15 as [->|(C & _)]; congruence.
Qed.
Lemma srel_more p e bs x al ha : good p -> asks_in p = false -> srel e -> q_x e = [] -> cut x ->
  (bs = bytes p /\ x = [] -> srel (mkP (give (q_s e) bs al ha) (q_ps e ++ [p]) x)) /\ (bs = x -> srel (mkP (give (q_s e) bs al ha) (q_ps e) x)).
Proof.
  intros Hg Ho [H1 H2 H3 (z & H4) H5] Hx Hcx. rewrite Hx, app_nil_r in *. unfold give. split.
  - intros (-> & ->). assert (Ec : cat (q_ps e ++ [p]) = cat (q_ps e) ++ bytes p) by (rewrite cat_app; unfold cat at 2; cbn [map concat]; now rewrite app_nil_r). constructor; cbn [q_s q_ps q_x t_alive t_bytes]; auto.
    + apply Forall_app. auto.
    + destruct (t_alive (q_s e)) eqn:Ea; cbn [t_alive t_bytes]; [intros _; rewrite H3, Ec, app_nil_r; auto|congruence].
    + destruct (t_alive (q_s e)) eqn:Ea; cbn [t_alive t_bytes]; rewrite app_nil_r, Ec; [exists []; rewrite H3, app_nil_r; auto|exists (z ++ bytes p); rewrite H4, <- app_assoc; auto].
    + unfold calm_tail in *. cbn [q_ps]. destruct (q_ps e) as [|y l]; [reflexivity|]. cbn [app tl] in *. rewrite existsb_app, H5. cbn. now rewrite Ho.
  - intros ->. constructor; cbn [q_s q_ps q_x t_alive t_bytes]; auto.
    + destruct (t_alive (q_s e)) eqn:Ea; cbn [t_alive t_bytes]; [intros _; rewrite H3; auto|congruence].
    + destruct (t_alive (q_s e)) eqn:Ea; cbn [t_alive t_bytes]; [exists []; rewrite H3, app_nil_r; auto|exists (z ++ x); rewrite H4, <- app_assoc; auto].
Qed.
Lemma sim_send k p u s d v a rd B lv junk L e : good p -> asks_in p = false -> may_send true s -> BLinked k B -> Sim (mkH (u ++ [s]) d v a rd) B lv junk L e ->
  exists B' lv' junk' L' e', BLinked (k ++ [Sent p]) B' /\ Sim (mkH (u ++ [give s (bytes p) true (t_half s)]) d v a rd) B' lv' junk' L' e'.
Proof.
  intros Hg Ho Hm HB S. pose proof S as [U1 U2 U3 U4 U5 U6 U7 U8 U9 U10 U12 U11]. cbn [h_up h_sent h_srv h_ans h_read] in *. symmetry in U1. apply last_of in U1. destruct U1 as (-> & ->).
  destruct B as [bu bd bc bv ba br]. cbn [bi_up bi_sent bi_cut bi_srv bi_ans bi_read] in *. specialize (Hm eq_refl). destruct e as [s ps x]. cbn [q_s q_ps q_x] in *.
  pose proof U3 as K. apply Forall_app in K. destruct K as (_ & K). inversion K as [|? ? Ke _]; subst. eapply blinked_client in HB; [|apply (bk_send p); exact Ho].
  destruct bc.
  - assert (Ha : t_alive s = false) by (destruct (t_alive s); auto; cbn in Hm; specialize (U6 eq_refl Hm); discriminate).
    eexists _, lv, junk, L, (mkP s ps x). split; [exact HB|]. eapply sim_last; [exact S|..]; sides; auto. rewrite map_app. unfold give. now rewrite Ha.
  - specialize (U7 eq_refl). subst x. destruct (srel_more p (mkP s ps []) (bytes p) [] true (t_half s) Hg Ho Ke eq_refl cut_nil) as (Sr & _). specialize (Sr (conj eq_refl eq_refl)). cbn [q_s q_ps] in Sr.
    eexists _, lv, junk, L, (mkP (give s (bytes p) true (t_half s)) (ps ++ [p]) []). split; [exact HB|]. eapply sim_last; [exact S|..]; sides; auto; try discriminate.
    + now rewrite map_app.
    + rewrite !map_app, !concat_app. cbn [map concat q_ps]. now rewrite !app_nil_r, <- !app_assoc.
    + right. split; [|eauto]. destruct lv; auto. destruct (U11 eq_refl) as (_ & _ & _ & C). discriminate.
Qed.
Lemma sim_send_cut k p er b c u s d v a rd B lv junk L e : good p -> asks_in p = false -> may_send true s -> bytes p = b ++ c -> c <> [] -> BLinked k B -> Sim (mkH (u ++ [s]) d v a rd) B lv junk L e ->
  exists B' lv' junk' L' e', BLinked (k ++ [Cut p er]) B' /\ Sim (mkH (u ++ [give s b (negb er) true]) d v a rd) B' lv' junk' L' e'.
Proof.
  intros Hg Ho Hm Eb Hc HB S. pose proof S as [U1 U2 U3 U4 U5 U6 U7 U8 U9 U10 U12 U11]. cbn [h_up h_sent h_srv h_ans h_read] in *. symmetry in U1. apply last_of in U1. destruct U1 as (-> & ->).
  destruct B as [bu bd bc bv ba br]. cbn [bi_up bi_sent bi_cut bi_srv bi_ans bi_read] in *. specialize (Hm eq_refl). destruct e as [s ps x]. cbn [q_s q_ps q_x] in *.
  pose proof U3 as K. apply Forall_app in K. destruct K as (_ & K). inversion K as [|? ? Ke _]; subst. eapply blinked_client in HB; [|apply (bk_send_cut p er); exact Ho].
  destruct (t_alive s) eqn:Ha.
  - cbn in Hm. specialize (U6 eq_refl Hm). specialize (U7 U6). subst x. destruct (srel_more p (mkP s ps []) b b (negb er) true Hg Ho Ke eq_refl (good_cut p b c Hg Eb Hc)) as (_ & Sr). specialize (Sr eq_refl). cbn [q_s q_ps] in Sr.
    eexists _, lv, junk, L, (mkP (give s b (negb er) true) ps b). split; [exact HB|]. eapply sim_last; [exact S|..]; sides; auto; try discriminate.
    + now rewrite map_app.
    + now rewrite !map_app.
    + unfold give. rewrite Ha. cbn. discriminate.
  - eexists _, lv, junk, L, (mkP s ps x). split; [exact HB|]. eapply sim_last; [exact S|..]; sides; auto; try congruence.
    rewrite map_app. unfold give. now rewrite Ha.
Qed.
Lemma sim_read k bs u d v a rd B lv junk L e : prefix (rd ++ bs) (stream a (map wire d)) -> BLinked k B -> Sim (mkH u d v a rd) B lv junk L e ->
  exists B' lv' junk' L' e', BLinked (k ++ [Did (EIn bs)]) B' /\ Sim (mkH u d v a (rd ++ bs)) B' lv' junk' L' e'.
Proof.
  intros Hp HB S. pose proof S as [U1 U2 U3 U4 U5 U6 U7 U8 U9 U10 U12 U11]. cbn [h_up h_sent h_srv h_ans h_read] in *. destruct B as [bu bd bc bv ba br]. cbn [bi_up bi_sent bi_cut bi_srv bi_ans bi_read] in *. subst rd.
  assert (K : prefix (br ++ bs) (stream ba (map wire bd)) /\ (lv = false -> bs = [])).
  { destruct lv; [destruct (U10 eq_refl) as (-> & -> & _); split; [auto|discriminate]|]. destruct (U11 eq_refl) as (-> & -> & _). destruct Hp as (z & Hp). cbn [stream app] in Hp. symmetry in Hp. apply app_eq_nil in Hp. destruct Hp as (-> & _). split; auto. exists (stream ba (map wire bd)). reflexivity. }
  destruct K as (K1 & K2). eexists _, lv, junk, L, e. split; [eapply blinked_client; [exact HB|apply bk_read; exact K1]|]. constructor; sides; auto. intro Hl. destruct (U11 Hl) as (V1 & V2 & V3 & V4). rewrite (K2 Hl), app_nil_r. auto.
Qed.
Lemma full_in_sim k F : HLinked true k F -> (forall x p, In x k -> carries x = Some p -> good p) -> exists B lv junk L e, BLinked k B /\ Sim F B lv junk L e.
Proof.
  induction 1 as [|k F x F' HF IH S|k F F' HF IH S]; intro Hg.
  - exists binet0, true, [], [], (mkP (mkS [] false false) [] []). clear Hg. split; [constructor|]. constructor; sides; auto; try discriminate.
    + constructor; [|constructor]. constructor; sides; auto using cut_nil; try reflexivity; exists []; reflexivity.
    + intros e' l E. injection E as <- <-. constructor.
    + intros _. split; auto.
  - destruct IH as (B & lv & junk & L & e & HB & HS); [intros y p Hy; apply Hg; apply in_app_iff; auto|].
    assert (Gx : forall p, carries x = Some p -> good p) by (intros p Ep; apply (Hg x p); auto; apply in_app_iff; right; now left).
    destruct S; [eapply sim_connect|eapply sim_connect_cut|eapply sim_send|eapply sim_send_cut|eapply sim_read|]; eauto.
    exists B, lv, junk, L, e.
    split; auto. eapply blinked_client; [exact HB|now apply bk_did].
  - destruct (IH Hg) as (B & lv & junk & L & e & HB & HS). destruct S; [eapply sim_serve|eapply sim_next|eapply sim_break|eapply sim_new|eapply sim_again|eapply sim_other]; eauto.
Qed.
