(** Proofs about the functions of InitModel.v. *)
From Coq Require Import ZArith List Bool String Lia ZifyBool ZifyNat.
From Verif Require Import Base StateModel CoreModel InitModel.
Import ListNotations.
Open Scope Z_scope.

(** ** What the calls ask for *)
(** the pointers MQTT_Init needs *)
Definition init_given (tr : option transport) (getTime cb : option Z) (buf : option fixedbuf) : Prop :=
  exists t b, tr = Some t /\ buf = Some b /\ getTime <> None /\ cb <> None /\ t_recv t <> None /\ t_send t <> None.
(** an array of records and its count fit together *)
Definition fits (p : option (list rec)) (n : Z) : Prop := p = None <-> n = 0.

Lemma init_exact : forall ctx tr g cb b r ctx',
  mqtt_init ctx tr g cb b = (r, ctx') ->
  (r = Success <-> ctx <> None /\ init_given tr g cb b) /\ (r <> Success -> r = BadParameter /\ ctx' = ctx).
Proof.
  intros ctx tr g cb b r ctx' H. unfold mqtt_init in H. unfold init_given.
  destruct ctx as [k|]; [|inversion H; subst; split; [split; [discriminate|intros [N _]; congruence]|auto]].
  destruct tr as [t|]; [|inversion H; subst; split; [split; [discriminate|intros (_ & t & b' & N & _); congruence]|auto]].
  destruct b as [b|]; [|inversion H; subst; split; [split; [discriminate|intros (_ & t' & b' & _ & N & _); congruence]|auto]].
  destruct g as [g|]; cbn [nul] in H;
    [|inversion H; subst; split; [split; [discriminate|intros (_ & t' & b' & _ & _ & N & _); congruence]|auto]].
  destruct cb as [cb|]; cbn [nul] in H;
    [|inversion H; subst; split; [split; [discriminate|intros (_ & t' & b' & _ & _ & _ & N & _); congruence]|auto]].
  destruct (t_recv t) as [tr|] eqn:Et; cbn [nul] in H;
    [|inversion H; subst; split; [split; [discriminate|intros (_ & t' & b' & X & _ & _ & _ & N & _); congruence]|auto]].
  destruct (t_send t) as [ts|] eqn:Es; cbn [nul] in H;
    [|inversion H; subst; split; [split; [discriminate|intros (_ & t' & b' & X & _ & _ & _ & _ & N); congruence]|auto]].
  inversion H; subst. split; [|intros N; exfalso; apply N; reflexivity]. split; [|reflexivity].
  intros _. split; [discriminate|]. exists t, b. rewrite Et, Es. repeat split; discriminate.
Qed.

Lemma eqb_fits : forall p n, negb (Bool.eqb (n =? 0) (nul p)) = false <-> fits p n.
Proof.
  intros [p|] n; unfold fits; cbn [nul]; destruct (n =? 0) eqn:E; cbn; split; try discriminate; try reflexivity;
    intros; try split; intros; try congruence; try lia.
  all: try (destruct H as [H H']; exfalso; try (assert (Some p = None) by (apply H'; lia); discriminate)).
  assert (n = 0) by (apply H; reflexivity). lia.
Qed.

Lemma stateful_exact : forall ctx po no pi ni r ctx',
  mqtt_init_stateful ctx po no pi ni = (r, ctx') ->
  (r = Success <-> exists k, ctx = Some k /\ k_cb k <> None /\ fits po no /\ fits pi ni) /\
  (r <> Success -> r = BadParameter /\ ctx' = ctx).
Proof.
  intros ctx po no pi ni r ctx' H. unfold mqtt_init_stateful in H.
  destruct ctx as [k|]; [|inversion H; subst; split; [split; [discriminate|intros (k & N & _); congruence]|auto]].
  destruct (negb (Bool.eqb (no =? 0) (nul po))) eqn:E1.
  { inversion H; subst; split; [split; [discriminate|intros (k' & _ & _ & N & _)]|auto].
    apply eqb_fits in N. congruence. }
  destruct (negb (Bool.eqb (ni =? 0) (nul pi))) eqn:E2.
  { inversion H; subst; split; [split; [discriminate|intros (k' & _ & _ & _ & N)]|auto].
    apply eqb_fits in N. congruence. }
  destruct (k_cb k) as [c|] eqn:E3; cbn [nul] in H.
  - inversion H; subst. split; [|intros N; exfalso; apply N; reflexivity]. split; [|reflexivity]. intros _. exists k.
    split; [reflexivity|]. split; [congruence|]. split; apply eqb_fits; assumption.
  - inversion H; subst. split; [split; [discriminate|intros (k' & X & N & _)]|auto]. congruence.
Qed.

Lemma retransmits_exact : forall ctx s t c r ctx',
  mqtt_init_retransmits ctx s t c = (r, ctx') ->
  (r = Success <-> ctx <> None /\ s <> None /\ t <> None /\ c <> None) /\
  (r <> Success -> r = BadParameter /\ ctx' = ctx).
Proof.
  intros ctx s t c r ctx' H. unfold mqtt_init_retransmits in H.
  destruct ctx as [k|]; [destruct s as [s|]; [destruct t as [t|]; [destruct c as [c|]|]|]|]; cbn [nul] in H;
    inversion H; subst; clear H.
  1: split; [split; [intros _; repeat split; discriminate|reflexivity]|intros N; exfalso; apply N; reflexivity].
  all: split; [split; [discriminate|intros (A & B & C & D); congruence]|intros _; split; reflexivity].
Qed.

(** a context that MQTT_Init has set up does not depend on what was there *)
Lemma init_forgets : forall k k' tr g cb b,
  fst (mqtt_init (Some k) tr g cb b) = Success ->
  mqtt_init (Some k) tr g cb b = mqtt_init (Some k') tr g cb b.
Proof.
  intros k k' [t|] g cb [b|]; unfold mqtt_init; try discriminate.
  destruct (nul g); [discriminate|]. destruct (nul cb); [discriminate|].
  destruct (nul (t_recv t)); [discriminate|]. destruct (nul (t_send t)); [discriminate|]. reflexivity.
Qed.

(** ** Any sequence of the three calls *)
Fixpoint icalls_run (l : list icall) (ctx : option craw) : list status * option craw :=
  match l with
  | [] => ([], ctx)
  | c :: l' => let (r, ctx') := icall_run c ctx in
               let (rs, ctx'') := icalls_run l' ctx' in (r :: rs, ctx'')
  end.
(** the arrays given are as long as their counts say *)
Definition icall_sound (c : icall) : Prop :=
  match c with
  | IStateful po no pi ni => (po <> None -> no = zlen (arr po)) /\ (pi <> None -> ni = zlen (arr pi))
  | _ => True
  end.
Definition is_init (c : icall) : Prop := match c with IInit _ _ _ _ => True | _ => False end.

(** the arrays of the last MQTT_InitStatefulQoS that answered MQTTSuccess *)
Fixpoint last_arrays (l : list icall) (rs : list status) (a : recs) : recs :=
  match l, rs with
  | IStateful po _ pi _ :: l', Success :: rs' => last_arrays l' rs' (mkRecs po pi)
  | _ :: l', _ :: rs' => last_arrays l' rs' a
  | _, _ => a
  end.
(** some MQTT_InitRetransmits answered MQTTSuccess *)
Fixpoint some_store (l : list icall) (rs : list status) (b : bool) : bool :=
  match l, rs with
  | IRetransmits _ _ _ :: l', Success :: rs' => some_store l' rs' true
  | _ :: l', _ :: rs' => some_store l' rs' b
  | _, _ => b
  end.

Lemma stands_stateful : forall k c po no pi ni,
  stands k c -> icall_sound (IStateful po no pi ni) -> fits po no -> fits pi ni ->
  stands (mkRaw po no pi ni (k_tr k) (k_fb k) (k_next k) (k_cb k) (k_lastTx k) (k_lastRx k)
                (k_ctl k) (k_status k) (k_time k) (k_index k) (k_keep k) (k_ping k) (k_wait k)
                (k_store k) (k_retrieve k) (k_clear k)) (set_recs c (mkRecs po pi)).
Proof.
  intros k c po no pi ni St [S1 S2] F1 F2. unfold stands in *.
  destruct St as (A1 & A2 & A3 & A4 & A5 & A6). 
  cbn [k_out k_in k_outn k_inn k_tr k_fb k_next k_cb k_lastTx k_lastRx k_ctl k_status k_time k_index k_keep
       k_ping k_wait k_store k_retrieve k_clear set_recs x_recs x_buf x_index x_nextId x_status x_lastTx x_lastRx
       x_ctl x_keep x_pingTime x_waiting x_retr] in *.
  split; [reflexivity|].
  split. { destruct po as [po|]; [apply S1; discriminate|]. cbn [arr]. apply F1. reflexivity. }
  split. { destruct pi as [pi|]; [apply S2; discriminate|]. cbn [arr]. apply F2. reflexivity. }
  split; [exact F1|]. split; [exact F2|]. exact A6.
Qed.

Definition set_retr (c : context) (b : bool) : context :=
  mkCtx (x_recs c) (x_buf c) (x_index c) (x_nextId c) (x_status c)
    (x_lastTx c) (x_lastRx c) (x_ctl c) (x_keep c) (x_pingTime c) (x_waiting c) b.
Lemma stands_retr : forall k c s r cl,
  stands k c -> s <> None -> r <> None -> cl <> None ->
  stands (mkRaw (k_out k) (k_outn k) (k_in k) (k_inn k) (k_tr k) (k_fb k) (k_next k) (k_cb k)
                (k_lastTx k) (k_lastRx k) (k_ctl k) (k_status k) (k_time k) (k_index k) (k_keep k)
                (k_ping k) (k_wait k) s r cl) (set_retr c true).
Proof.
  intros k c s r cl St Hs Hr Hc. unfold stands in *.
  destruct St as (A1 & A2 & A3 & A4 & A5 & A6 & A7 & A8 & A9 & A10 & A11 & A12 & A13 & A14 & A15 & A16 & A17 & A18 & A19 & A20 & _).
  cbn [k_out k_in k_outn k_inn k_tr k_fb k_next k_cb k_lastTx k_lastRx k_ctl k_status k_time k_index k_keep
       k_ping k_wait k_store k_retrieve k_clear set_retr x_recs x_buf x_index x_nextId x_status x_lastTx x_lastRx
       x_ctl x_keep x_pingTime x_waiting x_retr] in *.
  repeat (split; [assumption|]). repeat split; assumption.
Qed.

Lemma after_init : forall l k c rs k',
  Forall icall_sound l -> Forall (fun x => ~ is_init x) l ->
  stands k c -> icalls_run l (Some k) = (rs, k') ->
  exists k2, k' = Some k2 /\
    stands k2 (set_retr (set_recs c (last_arrays l rs (x_recs c))) (some_store l rs (x_retr c))).
Proof.
  induction l as [|x l IH]; intros k c rs k' So Ni St H.
  - cbn [icalls_run] in H. injection H as <- <-. exists k. split; [reflexivity|].
    destruct c. exact St.
  - cbn [icalls_run] in H. destruct (icall_run x (Some k)) as [r ctx1] eqn:E1.
    destruct (icalls_run l ctx1) as [rs1 ctx2] eqn:E2. injection H as <- <-.
    inversion So as [|? ? So1 So2]. inversion Ni as [|? ? Ni1 Ni2]. subst.
    destruct x as [tr g cb b|po no pi ni|s t cl]; [exfalso; apply Ni1; exact I| |].
    + cbn [icall_run] in E1. pose proof (stateful_exact _ _ _ _ _ _ _ E1) as [X1 X2].
      destruct (status_eq_dec r Success) as [->|N].
      * destruct X1 as [X1 _]. destruct (X1 eq_refl) as (k0 & K0 & Kc & F1 & F2). injection K0 as <-.
        unfold mqtt_init_stateful in E1.
        apply eqb_fits in F1 as G1. apply eqb_fits in F2 as G2. rewrite G1, G2 in E1.
        destruct (k_cb k) eqn:Ek; [|congruence]. cbn [nul] in E1.
        assert (Ec : ctx1 = Some (mkRaw po no pi ni (k_tr k) (k_fb k) (k_next k) (k_cb k) (k_lastTx k) (k_lastRx k)
                (k_ctl k) (k_status k) (k_time k) (k_index k) (k_keep k) (k_ping k) (k_wait k)
                (k_store k) (k_retrieve k) (k_clear k))) by (rewrite Ek; congruence).
        subst ctx1.
        destruct (IH _ _ _ _ So2 Ni2 (stands_stateful _ _ _ _ _ _ St So1 F1 F2) E2) as (k2 & -> & S2).
        exists k2. split; [reflexivity|]. cbn [last_arrays some_store]. exact S2.
      * destruct (X2 N) as [-> ->].
        destruct (IH _ _ _ _ So2 Ni2 St E2) as (k2 & -> & S2).
        exists k2. split; [reflexivity|]. cbn [last_arrays some_store]. exact S2.
    + cbn [icall_run] in E1. pose proof (retransmits_exact _ _ _ _ _ _ E1) as [X1 X2].
      destruct (status_eq_dec r Success) as [->|N].
      * destruct X1 as [X1 _]. destruct (X1 eq_refl) as (_ & Hs & Ht & Hc).
        unfold mqtt_init_retransmits in E1.
        destruct s as [s|]; [|congruence]. destruct t as [t|]; [|congruence]. destruct cl as [cl|]; [|congruence].
        cbn [nul] in E1.
        assert (Ec := f_equal snd E1). cbn [snd] in Ec. subst ctx1.
        destruct (IH _ _ _ _ So2 Ni2 (stands_retr _ _ _ _ _ St Hs Ht Hc) E2) as (k2 & -> & S2).
        exists k2. split; [reflexivity|]. cbn [last_arrays some_store]. exact S2.
      * destruct (X2 N) as [-> ->].
        destruct (IH _ _ _ _ So2 Ni2 St E2) as (k2 & -> & S2).
        exists k2. split; [reflexivity|]. cbn [last_arrays some_store]. exact S2.
Qed.

Lemma init_start : forall k t g cb buf l rs k',
  t_recv t <> None -> t_send t <> None -> g <> None -> cb <> None ->
  Forall icall_sound l -> Forall (fun x => ~ is_init x) l ->
  icalls_run (IInit (Some t) g cb (Some (mkFb (Some buf) (zlen buf))) :: l) (Some k) = (rs, k') ->
  exists rs1 k2, rs = Success :: rs1 /\ k' = Some k2 /\
    stands k2 (init_context buf (last_arrays l rs1 (mkRecs None None)) (some_store l rs1 false)).
Proof.
  intros k t g cb buf l rs k' H1 H2 H3 H4 So Ni H. cbn [icalls_run icall_run] in H.
  destruct g as [g|]; [|congruence]. destruct cb as [cb|]; [|congruence].
  destruct (t_recv t) as [tr|] eqn:Et; [|congruence]. destruct (t_send t) as [ts|] eqn:Es; [|congruence].
  unfold mqtt_init in H. rewrite Et, Es in H. cbn [nul] in H.
  match type of H with (let (_, _) := icalls_run l (Some ?k1) in _) = _ => set (k1' := k1) in H end.
  destruct (icalls_run l (Some k1')) as [rs1 ctx2] eqn:E2. injection H as <- <-.
  assert (St : stands k1' (init_context buf (mkRecs None None) false)).
  { unfold stands, k1'. cbn. rewrite Et, Es. repeat split; try reflexivity; discriminate. }
  destruct (after_init _ _ _ _ _ So Ni St E2) as (k2 & -> & S2).
  exists rs1, k2. split; [reflexivity|]. split; [reflexivity|]. exact S2.
Qed.

(** ** Names *)
Lemma status_names : forall v w,
  mqtt_status_strerror v = mqtt_status_strerror w ->
  v = w \/ (forall s, status_val s <> v /\ status_val s <> w).
Proof.
  intros v w H.
  assert (D : forall x, (exists s, status_val s = x) \/
     (mqtt_status_strerror x = "Invalid MQTT Status code"%string /\ forall s, status_val s <> x)).
  { intros x. destruct (Z_lt_dec x 0) as [|].
    { right. split; [destruct x; try lia; reflexivity|]. intros []; cbn; lia. }
    destruct (Z_lt_dec 16 x) as [|].
    { right. split; [|intros []; cbn; lia].
      unfold mqtt_status_strerror. destruct x as [|p|p]; try lia.
      do 5 (destruct p as [p|p|]; try lia; try reflexivity). }
    left. assert (x = 0 \/ x = 1 \/ x = 2 \/ x = 3 \/ x = 4 \/ x = 5 \/ x = 6 \/ x = 7 \/ x = 8 \/ x = 9 \/ x = 10
      \/ x = 11 \/ x = 12 \/ x = 13 \/ x = 14 \/ x = 15 \/ x = 16) as C by lia.
    repeat (destruct C as [->|C]; [first [exists Success; reflexivity|exists BadParameter; reflexivity
     |exists NoMemory; reflexivity|exists SendFailed; reflexivity|exists RecvFailed; reflexivity
     |exists BadResponse; reflexivity|exists ServerRefused; reflexivity|exists NoDataAvailable; reflexivity
     |exists IllegalState; reflexivity|exists StateCollision; reflexivity|exists KeepAliveTimeout; reflexivity
     |exists NeedMoreBytes; reflexivity|exists StConnected; reflexivity|exists StNotConnected; reflexivity
     |exists StDisconnectPending; reflexivity|exists PublishStoreFailed; reflexivity]|]).
    subst x. exists PublishRetrieveFailed. reflexivity. }
  destruct (D v) as [[s <-]|[Ev Nv]]; destruct (D w) as [[s' <-]|[Ew Nw]].
  - left. destruct s, s'; cbn in H |- *; try reflexivity; discriminate.
  - rewrite Ew in H. destruct s; discriminate.
  - rewrite Ev in H. destruct s'; discriminate.
  - right. intros s. split; auto.
Qed.
Lemma state_names : forall v w,
  mqtt_state_strerror v = mqtt_state_strerror w ->
  v = w \/ (forall s, pstate_val s <> v /\ pstate_val s <> w).
Proof.
  intros v w H.
  assert (D : forall x, (exists s, pstate_val s = x) \/
     (mqtt_state_strerror x = "Invalid MQTT State"%string /\ forall s, pstate_val s <> x)).
  { intros x. destruct (Z_lt_dec x 0) as [|].
    { right. split; [destruct x; try lia; reflexivity|]. intros []; cbn; lia. }
    destruct (Z_lt_dec 10 x) as [|].
    { right. split; [|intros []; cbn; lia].
      unfold mqtt_state_strerror. destruct x as [|p|p]; try lia.
      do 4 (destruct p as [p|p|]; try lia; try reflexivity). }
    left. assert (x = 0 \/ x = 1 \/ x = 2 \/ x = 3 \/ x = 4 \/ x = 5 \/ x = 6 \/ x = 7 \/ x = 8 \/ x = 9 \/ x = 10)
      as C by lia.
    repeat (destruct C as [->|C]; [first [exists StateNull; reflexivity|exists PublishSend; reflexivity
     |exists PubAckSend; reflexivity|exists PubRecSend; reflexivity|exists PubRelSend; reflexivity
     |exists PubCompSend; reflexivity|exists PubAckPending; reflexivity|exists PubRecPending; reflexivity
     |exists PubRelPending; reflexivity|exists PubCompPending; reflexivity]|]).
    subst x. exists PublishDone. reflexivity. }
  destruct (D v) as [[s <-]|[Ev Nv]]; destruct (D w) as [[s' <-]|[Ew Nw]].
  - left. destruct s, s'; cbn in H |- *; try reflexivity; discriminate.
  - rewrite Ew in H. destruct s; discriminate.
  - rewrite Ev in H. destruct s'; discriminate.
  - right. intros s. split; auto.
Qed.

(** ** The start of the histories of CoreHarness.v *)
Lemma start_reached : forall buf n m retr k, exists l rs k2,
  Forall icall_sound l /\ icalls_run l (Some k) = (rs, Some k2) /\ Forall (fun r => r = Success) rs /\
  stands k2 (init_context buf (fresh_recs n m) retr).
Proof.
  intros buf n m retr k.
  set (a := fresh_recs n m).
  set (l1 := IStateful (outRecs a) (Z.of_nat n) (inRecs a) (Z.of_nat m) ::
             (if retr then [IRetransmits (Some 1) (Some 2) (Some 3)] else [])).
  set (t := mkTr (Some 1) (Some 2) None None).
  assert (So : Forall icall_sound l1).
  { unfold l1. constructor; [|destruct retr; repeat constructor].
    unfold a, fresh_recs. cbn [icall_sound outRecs inRecs].
    split; [destruct n|destruct m]; cbn [arr]; intros N; try congruence;
      unfold zlen; rewrite repeat_length; reflexivity. }
  assert (Ni : Forall (fun x => ~ is_init x) l1).
  { unfold l1. constructor; [intros []|]. destruct retr; repeat constructor. intros []. }
  assert (Fo : fits (outRecs a) (Z.of_nat n)).
  { unfold a, fresh_recs, fits. cbn [outRecs]. destruct n; split; intros; try reflexivity; try discriminate; lia. }
  assert (Fi : fits (inRecs a) (Z.of_nat m)).
  { unfold a, fresh_recs, fits. cbn [inRecs]. destruct m; split; intros; try reflexivity; try discriminate; lia. }
  set (l := IInit (Some t) (Some 1) (Some 2) (Some (mkFb (Some buf) (zlen buf))) :: l1).
  destruct (icalls_run l (Some k)) as [rs k'] eqn:E.
  destruct (init_start k t (Some 1) (Some 2) buf l1 rs k') as (rs1 & k2 & -> & -> & S2);
    try discriminate; try assumption.
  exists l, (Success :: rs1), k2. split; [constructor; [exact I|exact So]|]. split; [exact E|].
  assert (Er : rs1 = Success :: if retr then [Success] else []).
  { unfold l, l1 in E. cbn [icalls_run icall_run] in E. unfold mqtt_init in E. cbn [nul t t_recv t_send] in E.
    unfold mqtt_init_stateful in E. apply eqb_fits in Fo. apply eqb_fits in Fi. rewrite Fo, Fi in E.
    cbn [k_cb nul] in E. destruct retr; cbn [icalls_run icall_run] in E; unfold mqtt_init_retransmits in E;
      cbn [nul] in E; assert (X := f_equal fst E); cbn [fst] in X; injection X as <-; reflexivity. }
  subst rs1. split.
  - destruct retr; repeat constructor.
  - unfold l1 in S2. cbn [last_arrays some_store] in S2.
    destruct retr; cbn [last_arrays some_store] in S2; exact S2.
Qed.

Lemma init_usable : forall ctx tr g cb b k,
  mqtt_init ctx tr g cb (Some b) = (Success, Some k) -> fb_ptr b <> None -> loop_checks (Some k) = Success.
Proof.
  intros ctx tr g cb b k H N. unfold mqtt_init in H. destruct ctx as [k0|]; [|discriminate].
  destruct tr as [t|]; [|discriminate]. destruct g as [g|]; [|discriminate]. cbn [nul] in H.
  destruct cb as [cb|]; [|discriminate]. cbn [nul] in H.
  destruct (nul (t_recv t)); [discriminate|]. destruct (nul (t_send t)); [discriminate|].
  assert (E := f_equal snd H). cbn [snd] in E. injection E as <-. cbn. destruct (fb_ptr b); [reflexivity|exfalso; apply N; reflexivity].
Qed.
