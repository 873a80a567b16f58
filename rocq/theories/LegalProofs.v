(** A server that checks the order of the packets finds nothing wrong. *)
From Verif Require Import Base StateModel StateSpec StateHarness SerModel WireSpec SerHarness CoreModel CoreHarness CoreSpec ConcModel ConcHarness
  Machine MachSpec MachProofs MachProofs5 MachFacts MachFacts2 MachFinal NetSpec WireProofs ByteSpec ByteProofs FullSpec FullProofs FullFinal LineSpec LineProofs LegalSpec.

(** ** On which connection the client sends *)
Definition upon (l : list tok) : Prop := exists a m b, l = a ++ Sent (KConnect m) :: b /\ Forall (fun x => ~ leaves x) b.
Lemma upon_snoc l x : upon l -> ~ leaves x -> upon (l ++ [x]).
Proof. intros (a & m & b & -> & H) K. exists a, m, (b ++ [x]). split; [now rewrite <- app_assoc|]. apply Forall_app. auto. Qed.
Lemma upon_did l e : upon l -> upon (l ++ [Did e]).
Proof. intro H. apply upon_snoc; auto using did_leaves. Qed.
Lemma upon_dids l f : upon l -> forall ids : list Z, upon (l ++ map (fun i => Did (f i)) ids).
Proof. intros H ids. revert l H. induction ids as [|i ids IH]; intros l H; cbn; [now rewrite app_nil_r|]. replace (l ++ _ :: _) with ((l ++ [Did (f i)]) ++ map (fun i => Did (f i)) ids) by (rewrite <- app_assoc; reflexivity). apply IH. now apply upon_did. Qed.
Fixpoint busy (j : job) : bool :=
  match j with Wait _ _ | Resume | Fetch _ | Again _ _ => true | Clear _ j | Show _ j | Owe _ _ j | Note _ _ j => busy j | _ => false end.
Definition Q9 (l : list tok) (x : tok) : Prop := match carries x with Some (KConnect _) | None => True | Some _ => upon l end.
Definition P9 (l : list tok) (a : mstate) : Prop := (m_conn a <> NotConnected \/ busy (m_job a) = true -> upon l) /\ each Q9 l.
Lemma busy_give_up j : busy (give_up j) = false. Proof. now destruct j. Qed.
Lemma broke_nc c : broke c <> NotConnected -> c <> NotConnected. Proof. destruct c; cbn; congruence. Qed.
Lemma sends_upon p c ok l1 c' l : sends p c ok l1 c' -> upon l -> match p with KDisconnect | KConnect _ => False | _ => True end -> upon (l ++ l1).
Proof. intros H K N. apply sends_tok in H. destruct H as (x & -> & Ex & Ey). apply upon_snoc; auto. eapply carry_leaves; eauto. Qed.
Lemma sends_Q9 p c ok l1 c' l : sends p c ok l1 c' -> upon l \/ opens p = true -> each Q9 l -> each Q9 (l ++ l1).
Proof. intros H K N. apply sends_tok in H. destruct H as (x & -> & Ex & Ey). apply each_snoc; auto. unfold Q9. rewrite Ex. destruct p; auto; destruct K; try discriminate; auto. Qed.
Lemma did_Q9 l e : each Q9 l -> each Q9 (l ++ [Did e]).
Proof. intro H. apply each_snoc; auto. exact I. Qed.
Lemma P9_keeps rt cn l a l1 b : P9 l a -> mstep rt cn a l1 b -> P9 (l ++ l1) b.
Proof.
  intros (HU & HQ) S. destruct S; cbn [m_job m_conn] in *; unfold P9; cbn [m_conn m_job busy] in *; rewrite ?app_nil_r, ?busy_give_up in *;
    try (assert (U : upon l) by (apply HU; left; discriminate));
    try (split; [|first [apply did_Q9; exact HQ|exact HQ]]; intro K; try apply upon_did; apply HU; destruct K as [K|K]; auto using broke_nc; discriminate);
    try (split; [intros _; eapply sends_upon; eauto; exact I|eapply sends_Q9; eauto]; fail).
  - assert (E : upon (l ++ l0) /\ each Q9 (l ++ l0)).
    { unfold kept_copy in H2. destruct rt; [destruct H2 as (v & _ & ->); auto using upon_did, did_Q9|destruct H2 as (_ & ->); rewrite app_nil_r; auto]. }
    destruct E as (E1 & E2). rewrite app_assoc. destruct ok.
    + split; [intros _; eapply sends_upon; eauto; exact I|eapply sends_Q9; eauto].
    + destruct H3 as (_ & -> & ->). rewrite app_nil_r. auto.
  - split; [|eapply sends_Q9; eauto]. intros [K|K]; [|discriminate]. exfalso. apply K. inversion H0; reflexivity.
  - split; auto. intros [K|K]; [auto|]. exfalso. assert (F : busy told = false) by (unfold told; cbn [busy]; destruct (reply_to k); reflexivity). destruct k; [destruct rt|destruct rt| |]; cbn [busy] in K; congruence.
  - split; auto. intros [K|K]; [auto|]. destruct (status_beq _ _); [auto|]. rewrite busy_give_up in K. discriminate.
  - split; [|eapply sends_Q9; eauto]. intros [K|K]; [congruence|]. destruct ok; [|discriminate]. inversion H0; subst. exists l, m, []. auto.
  - assert (U' : upon l) by (apply HU; now right). destruct rt; [|rewrite app_nil_r; auto]. split; [intros _; now apply upon_dids|]. apply each_dids; auto. intros; exact I.
Qed.
Lemma run_upon rt cn n m l b : Run rt cn (mkM NotConnected (fresh_session n m) 1 Idle) l b -> each Q9 l.
Proof.
  intro R. apply (run_keeps rt cn P9) with (l0 := []) in R; [apply R| |].
  - intros. eapply P9_keeps; eauto.
  - split; [|apply each_nil]. intros [K|K]; [now elim K|discriminate].
Qed.

(** ** The packets sent on a connection *)
Definition going (l : list cpkt) : Prop := exists m l', l = KConnect m :: l' /\ Forall (fun p => opens p = false /\ p <> KDisconnect) l'.
Lemma upon_lines k : upon k -> exists c l, lines k = c :: l /\ going c.
Proof.
  intros (a & m & b & -> & H). unfold lines. rewrite fold_left_app. cbn [fold_left lines_step opens]. generalize (fold_left lines_step a [[]]). intro l.
  assert (G0 : going [KConnect m]) by (exists m, []; auto). revert G0. generalize [KConnect m]. revert l. induction H as [|x b Hx Hb IH]; intros l c Gc; cbn [fold_left]; [eauto|].
  destruct x as [p|p e|e]; cbn [lines_step]; auto; assert (Ho : opens p = false) by (destruct p; auto; exfalso; apply Hx; right; eexists; reflexivity); rewrite Ho; auto.
  apply IH. destruct Gc as (m' & l' & -> & Gl). exists m', (l' ++ [p]). split; auto. apply Forall_app. split; auto. constructor; auto. split; auto. intros ->. apply Hx. left. reflexivity.
Qed.
Lemma going_snoc c p : going c -> opens p = false -> in_order (c ++ [p]).
Proof.
  intros (m & l & -> & H) Hp. right. exists m, (l ++ [p]). split; auto. split; [apply Forall_app; split; auto; eapply Forall_impl; [|exact H]; cbn; tauto|].
  intros a b E. destruct (snoc_split _ _ _ _ _ E) as [(_ & _ & F)|(l3 & _ & F)]; auto. exfalso. rewrite F in H. apply Forall_app in H. destruct H as (_ & H). inversion H as [|? ? (_ & K) _]; subst. now apply K.
Qed.
Lemma lines_in_order k : each Q9 k -> Forall in_order (lines k).
Proof.
  induction k as [|x k IH] using rev_ind; intro H; [constructor; [now left|constructor]|].
  assert (Hk : each Q9 k) by (intros l1 y l2 E; apply (H l1 y (l2 ++ [x])); rewrite E, <- app_assoc; reflexivity). specialize (IH Hk). rewrite lines_snoc.
  assert (Hx : Q9 k x) by (apply (H k x []); reflexivity).
  destruct x as [p|p e|e]; cbn [lines_step]; auto.
  - destruct (opens p) eqn:Ep; [destruct p; try discriminate; constructor; auto; right; exists m, []; split; auto; split; auto; intros [|? a] b E; discriminate|].
    assert (U : upon k) by (unfold Q9 in Hx; cbn [carries] in Hx; destruct p; auto; discriminate). destruct (upon_lines k U) as (c & l & E & Gc). rewrite E in *. inversion IH; subst. constructor; auto using going_snoc.
  - destruct (opens p); auto. constructor; auto. now left.
Qed.
Lemma in_order_first a b : in_order (a ++ b) -> in_order a.
Proof.
  intros [E|(m & l & E & H1 & H2)]; [apply app_eq_nil in E; left; tauto|]. destruct a as [|p a]; [now left|]. cbn in E. injection E as -> <-. right. exists m, a. split; auto.
  apply Forall_app in H1. split; [tauto|]. intros x y ->. specialize (H2 x (y ++ b)). rewrite <- app_assoc in H2. specialize (H2 eq_refl). now apply app_eq_nil in H2.
Qed.
(** ** What is left to be read *)
Lemma readable_prefix x : cut x -> forall qs bs, Forall good3 qs -> prefix bs (cat qs ++ x) -> readable bs.
Proof.
  intro Hx. induction qs as [|p qs IH]; intros bs HG (z & E).
  - cbn in E. destruct Hx as (q & y & H1 & H2 & H3). exists [], bs. split; [constructor|]. split; [reflexivity|]. exists q, (z ++ y). split; auto. split; [intro K; apply app_eq_nil in K; tauto|]. now rewrite app_assoc, <- E.
  - inversion HG as [|? ? (q & A1 & _ & A2) HG']; subst. unfold cat in E. cbn [map concat] in E. rewrite <- app_assoc in E. change (concat (map bytes qs)) with (cat qs) in E.
    assert (D : (exists y, bs = bytes p ++ y) \/ exists y, y <> [] /\ bytes p = bs ++ y).
    { clear - E. revert bs E. generalize (bytes p). induction l as [|a l IHl]; intros bs E; [left; exists bs; reflexivity|]. destruct bs as [|b bs]; [right; exists (a :: l); split; [discriminate|reflexivity]|].
      cbn in E. injection E as -> E. destruct (IHl bs E) as [(y & ->)|(y & H & ->)]; [left; exists y; reflexivity|right; exists y; auto]. }
    destruct D as [(y & ->)|(y & Hy & Ey)].
    + rewrite <- app_assoc in E. apply app_inv_head in E. destruct (IH y HG') as (ps & x' & P1 & -> & P2); [now exists z|]. exists (q :: ps), x'. split; [constructor; auto|]. split; auto. cbn [map concat]. now rewrite A2, <- app_assoc.
    + exists [], bs. split; [constructor|]. split; [reflexivity|]. exists q, y. split; auto. split; auto. congruence.
Qed.
Definition like (p q : cpkt) : Prop := match p with KConnect m => q = KConnect m | KDisconnect => q = KDisconnect | _ => opens q = false /\ q <> KDisconnect end.
Lemma like_order ps qs : Forall2 like ps qs -> in_order ps -> in_order qs.
Proof.
  intros H [->|(m & l & -> & H1 & H2)]; [inversion H; now left|]. inversion H as [|? q ? qs' Hq F]; subst. cbn in Hq. subst q. right. exists m, qs'. split; auto. clear H. split.
  - clear H2. induction F as [|p q l qs' Hq F IH]; constructor; inversion H1; subst; auto. destruct p; cbn in Hq; try (subst q; reflexivity); try discriminate; tauto.
  - intros a b ->. apply Forall2_app_inv_r in F. destruct F as (l1 & l2 & F1 & F2 & ->). inversion F2 as [|p ? l2' ? Hp F3]; subst. specialize (H2 l1 l2').
    assert (E : p = KDisconnect) by (destruct p; cbn in Hp; auto; try discriminate; now destruct Hp). subst p. rewrite H2 in F3 by reflexivity. now inversion F3.
Qed.
Lemma lines_sent k : forall c p, In c (lines k) -> In p c -> In (Sent p) k.
Proof.
  induction k as [|x k IH] using rev_ind; intros c p Hc Hp; [destruct Hc as [<-|[]]; destruct Hp|]. rewrite lines_snoc in Hc. apply in_app_iff.
  destruct x as [q|q e|e]; cbn [lines_step] in Hc; [|destruct (opens q); [destruct Hc as [<-|Hc]; [destruct Hp|]|]; left; eauto|left; eauto].
  destruct (opens q); [destruct Hc as [<-|Hc]; [destruct Hp as [<-|[]]; right; now left|left; eauto]|].
  destruct (lines k) as [|c0 l]; [destruct Hc as [<-|[]]; destruct Hp as [<-|[]]; right; now left|]. destruct Hc as [<-|Hc]; [|left; apply (IH c); auto; now right].
  apply in_app_iff in Hp. destruct Hp as [Hp|[<-|[]]]; [left; apply (IH c0); auto; now left|right; now left].
Qed.
Section Legal.
Variables (rt cn : bool) (n m : nat) (k : list tok) (b : mstate).
Hypothesis R : Run rt cn (mkM NotConnected (fresh_session n m) 1 Idle) k b.
Hypothesis O : keeps_copies k.
Lemma again_publish : forall x i bs q, In x k -> carries x = Some (KAgain i bs) -> standard q -> bs = bytes q -> exists mg, q = KPublish mg.
Proof.
  intros x i bs q Hx Ex Hq E0. apply in_split in Hx. destruct Hx as (k1 & k2 & Ek). destruct (machine_facts _ _ _ _ _ _ R) as (F1 & _). specialize (F1 _ _ _ Ek).
  assert (L : legit k1 (KAgain i bs)) by (destruct x; try discriminate; cbn in Ex, F1; congruence). destruct L as (L1 & _ & L2). apply in_split in L2. destruct L2 as (a & c & ->). rewrite <- app_assoc in Ek.
  destruct (O _ _ _ _ Ek) as (a1 & y & a2 & -> & (v & -> & <-) & _). rewrite <- app_assoc in Ek.
  destruct (run_copies _ _ _ _ _ _ R _ _ _ Ek) as (m' & E & _ & _ & Hi & Hp). assert (S : standard (KPublish m')) by (split; [exact Hp|cbn; congruence]).
  exists m'. apply (bytes_split q (KPublish m') [] []); auto. rewrite !app_nil_r. rewrite <- E0. exact E.
Qed.
Lemma legal_match k1 k2 N : k = k1 ++ k2 -> Wired true k1 N -> Forall legal_line N.
Proof.
  intros E H. assert (K : Forall2 lrels (lines k1) N) by (apply wired_inv; auto; intros x p Hx; apply (run_good3 _ _ _ _ _ _ R O); rewrite E; apply in_app_iff; auto).
  assert (HO : Forall in_order (lines k1)) by (apply lines_in_order; pose proof (run_upon _ _ _ _ _ _ R) as HQ; intros l1 y l2 E1; apply (HQ l1 y (l2 ++ k2)); rewrite E, E1, <- app_assoc; reflexivity).
  assert (HS : Forall (fun c => forall p, In p c -> In (Sent p) k) (lines k1)) by (apply Forall_forall; intros c Hc p Hp; rewrite E; apply in_app_iff; left; eapply lines_sent; eauto).
  clear - K HO HS R O. induction K as [|sent L l N V K IH]; constructor; inversion HO; inversion HS; subst; auto. clear IH K HO HS.
  destruct V as (tk & qs & later & y & [V0 V1 V2 V3 V4 V5 V6]). split.
  - apply (like_order tk); [|eapply in_order_first; rewrite <- V1; assumption].
    assert (HT : forall p, In p tk -> In (Sent p) k) by (intros p Hp; apply H5; rewrite V1; apply in_app_iff; auto). clear - V2 HT R O.
    induction V2 as [|p q tk got Hu V2 IH]; constructor; [|apply IH; intros; apply HT; now right].
    assert (Hp : In (Sent p) k) by (apply HT; now left). destruct p as [mg|mg|i fs|i fs| | |a i|i bs]; cbn in Hu; subst; cbn; try (split; [reflexivity|discriminate]); auto.
    + destruct mg as [d [] r t i y]; split; reflexivity || discriminate.
    + destruct Hu as (Hq & E). destruct (again_publish _ i bs q Hp eq_refl Hq E) as (mg & ->). split; [reflexivity|discriminate].
  - rewrite V1 in V0. apply Forall_app in V0. destruct V0 as (_ & V0). apply Forall_app in V0. exact (readable_prefix _ V3 _ _ (proj1 V0) V6).
Qed.
End Legal.
Lemma legal_history G n m l w s rs w' s' t cn : legal G n m l w s -> g_big G = false -> c_run_calls G l w s = Ret (Some rs, w') s' t -> all_fit G cn l w s ->
  exists k, Says t k /\
  Run (x_retr (s_ctx s)) cn (mkM NotConnected (fresh_session n m) 1 Idle) k (mkM (x_status (s_ctx s')) (session_of n m s') (x_nextId (s_ctx s')) Idle) /\
  (keeps_copies k -> forall k1 k2 N, k = k1 ++ k2 -> Wired true k1 N -> Forall legal_line N).
Proof.
  intros H1 H2 H4 H3. destruct (refinement _ _ _ _ _ _ _ _ _ _ _ H1 H2 H3 H4) as (k & S & R). exists k. split; auto. split; auto. intros O k1 k2 N E HN. exact (legal_match _ _ _ _ _ _ R O _ _ _ E HN).
Qed.
