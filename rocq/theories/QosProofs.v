(** Proofs about the models with integer QoS values. *)
From Verif Require Import Base StateModel StateSpec StateHarness StateProofs SerModel WireSpec SerHarness SerProofs SerProofs2
  SerProofs3 SerProofs4 SerProofs5 CoreModel CoreHarness CoreProofs CoreProofs2 CoreProofs3 CoreProofs4 QosModel.

(** ** The engine seen through any map of the QoS values that keeps 0 *)
Definition rmap {A B} (f : A -> B) (r : R A) : R B := match r with Ok a => Ok (f a) | Ub => Ub end.

Section Map.
Variable f : Z -> qos.
Hypothesis f0 : f 0 = Q0.
Definition ab (r : zrec) : rec := mkRec (zid r) (f (zqos r)) (zst r).
Definition abl (l : list zrec) : list rec := map ab l.
Definition abo (o : option (list zrec)) : option (list rec) := option_map abl o.
Definition abz (z : zrecs) : recs := mkRecs (abo (zout z)) (abo (zin z)).

Lemma ab_empty : ab zempty = empty_rec.
Proof. unfold ab. cbn. now rewrite f0. Qed.
Lemma ab_nth i l : nth i (abl l) empty_rec = ab (nth i l zempty).
Proof. rewrite <- ab_empty. apply map_nth. Qed.
Lemma ab_upd l i r : abl (upd l i r) = upd (abl l) i (ab r).
Proof. revert i. induction l as [|h l IH]; intros [|i]; cbn; auto. now rewrite IH. Qed.
Lemma ab_len l : length (abl l) = length l.
Proof. apply map_length. Qed.
Lemma ab_arr o : arr (abo o) = abl (zarr o).
Proof. destruct o; reflexivity. Qed.
Lemma ab_set o l : set_arr (abo o) (abl l) = abo (zset_arr o l).
Proof. destruct o; reflexivity. Qed.
Lemma ab_repeat n : abl (repeat zempty n) = repeat empty_rec n.
Proof. induction n as [|n IH]; cbn [repeat abl map]; auto. rewrite ab_empty. f_equal. exact IH. Qed.

Lemma ab_find l : forall i id, find_loop (abl l) i id = option_map (fun x => (fst x, ab (snd x))) (z_find_loop l i id).
Proof. induction l as [|r l IH]; intros i id; cbn; auto. destruct (zid r =? id); auto. Qed.
Lemma ab_body l e i : compact_body (abl l, e) i = (abl (fst (z_compact_body (l, e) i)), snd (z_compact_body (l, e) i)).
Proof.
  unfold compact_body, z_compact_body. rewrite ab_nth. cbn [ab rid].
  destruct (zid _ =? 0); destruct e; auto. cbn [fst snd]. rewrite !ab_upd, ab_empty. reflexivity.
Qed.
Lemma ab_fold is : forall l e, fold_left compact_body is (abl l, e) =
  (abl (fst (fold_left z_compact_body is (l, e))), snd (fold_left z_compact_body is (l, e))).
Proof.
  induction is as [|i is IH]; intros l e; cbn [fold_left]; auto. rewrite ab_body.
  destruct (z_compact_body (l, e) i) as [l1 e1]. apply IH.
Qed.
Lemma ab_compact l : compactRecords (abl l) = abl (z_compactRecords l).
Proof. unfold compactRecords, z_compactRecords. rewrite ab_len, ab_fold. reflexivity. Qed.
Lemma ab_scan l id i : forall av v, add_scan (abl l) i id av v = z_add_scan l i id av v.
Proof.
  induction i as [|i IH]; intros av v; cbn [add_scan z_add_scan]; auto.
  rewrite ab_nth. cbn [ab rid]. destruct (zid _ =? 0); auto. destruct (zid _ =? id); auto.
Qed.
Definition abp {A} (x : A * list zrec) : A * list rec := (fst x, abl (snd x)).
Lemma ab_add l id q st : q <> 0 -> f q <> Q0 -> addRecord (abl l) id (f q) st = rmap abp (z_addRecord l id q st).
Proof.
  intros H H0. unfold addRecord, z_addRecord, rassert. replace (q =? 0) with false by lia.
  replace (qos_beq (f q) Q0) with false by (destruct (f q); [congruence|auto|auto]).
  destruct (negb (id =? 0)); cbn [andb negb]; auto. rewrite ab_len. destruct (length l) as [|n]; auto.
  rewrite ab_nth. cbn [ab rid]. cbv zeta.
  assert (K : (if negb (zid (nth n l zempty) =? 0) then compactRecords (abl l) else abl l) =
    abl (if negb (zid (nth n l zempty) =? 0) then z_compactRecords l else l)).
  { destruct (negb _); auto. apply ab_compact. }
  rewrite K. generalize (if negb (zid (nth n l zempty) =? 0) then z_compactRecords l else l). intro l1.
  rewrite ab_len, ab_scan. destruct (z_add_scan l1 (length l1) id None false) as [b o].
  destruct b; [reflexivity|]. destruct o as [j|]; [|reflexivity]. unfold rmap, abp, fst, snd. rewrite ab_upd. reflexivity.
Qed.
Lemma ab_update l i new d : updateRecord (abl l) i new d = rmap abl (z_updateRecord l i new d).
Proof.
  unfold updateRecord, z_updateRecord. unfold abl at 1. rewrite nth_error_map. destruct (nth_error l i) as [r|]; auto.
  cbn [option_map rmap]. destruct d; rewrite ab_upd, ?ab_empty; reflexivity.
Qed.
Lemma ab_select mask l : forall c, select_loop (abl l) mask c = z_select_loop l mask c.
Proof. induction l as [|r l IH]; intro c; cbn; auto. destruct (in_mask mask (zst r)); auto. Qed.
Lemma ab_stateSelect mask l c : stateSelect (abl l) mask c = z_stateSelect l mask c.
Proof. unfold stateSelect, z_stateSelect. rewrite <- ab_select. unfold abl. now rewrite skipn_map. Qed.
Lemma ab_reserve z id q : (q <> 0 -> f q <> Q0) -> reserveState (abz z) id (f q) = rmap (fun x => (fst x, abz (snd x))) (z_reserveState z id q).
Proof.
  intros H. unfold reserveState, z_reserveState. destruct (q =? 0) eqn:E.
  - assert (q = 0) by lia. subst q. rewrite f0. reflexivity.
  - assert (f q <> Q0) by (apply H; lia). replace (qos_beq (f q) Q0) with false by (destruct (f q); [congruence|auto|auto]).
    destruct (id =? 0); [reflexivity|]. cbn [abz outRecs]. rewrite ab_arr, ab_add by (auto; lia).
    destruct (z_addRecord _ _ _ _) as [[st l]|]; [|reflexivity]. cbn [rmap rbind abp fst snd]. unfold set_out, abz. cbn. rewrite ab_set. reflexivity.
Qed.
End Map.

(** ** The values of the enumeration: the same as StateModel *)
Definition toq (q : Z) : qos := if q =? 1 then Q1 else if q =? 2 then Q2 else Q0.
Definition ok_qos (q : Z) : Prop := 0 <= q <= 2.
Lemma toq_cases q : q = 1 /\ toq q = Q1 \/ q = 2 /\ toq q = Q2 \/ q <> 1 /\ q <> 2 /\ toq q = Q0.
Proof. unfold toq. destruct (q =? 1) eqn:E; [left; split; [lia|auto]|]. destruct (q =? 2) eqn:E2; [right; left; split; [lia|auto]|]. right; right; split; [lia|split; [lia|auto]]. Qed.
Lemma toq_1 q : qos_beq (toq q) Q1 = (q =? 1).
Proof. unfold toq. destruct (q =? 1) eqn:E, (q =? 2) eqn:E2; auto. Qed.
Lemma toq_2 q : qos_beq (toq q) Q2 = (q =? 2).
Proof. unfold toq. destruct (q =? 1) eqn:E, (q =? 2) eqn:E2; auto. lia. Qed.
Lemma toq_ok q : ok_qos q -> q <> 0 -> toq q <> Q0.
Proof. intros H H0. destruct (toq_cases q) as [(_ & ->)|[(_ & ->)|(? & ? & _)]]; [congruence|congruence|]. unfold ok_qos in H. lia. Qed.

Definition zto_call (c : zcall) : scall :=
  match c with
  | ZReserve id q => CReserve id (toq q)
  | ZUpdatePublish id op q => CUpdatePublish id op (toq q)
  | ZUpdateAck id t op => CUpdateAck id t op
  | ZRemove id => CRemove id
  | ZReset => CReset
  end.
Definition ok_call (c : zcall) : Prop :=
  match c with ZReserve _ q | ZUpdatePublish _ _ q => ok_qos q | _ => True end.

Lemma same_validate cur new op q : q <> 0 -> validateTransitionPublish cur new op (toq q) = z_validateTransitionPublish cur new op q.
Proof.
  intros H. unfold validateTransitionPublish, z_validateTransitionPublish. destruct cur; auto.
  unfold toq. destruct (q =? 1) eqn:E; auto. destruct (q =? 2); auto.
Qed.
Notation az := (abz toq).
Notation al := (abl toq).
Lemma same_updpub z i id op q cur new : ok_qos q -> q <> 0 ->
  updateStatePublish (az z) i id op (toq q) cur new = rmap (fun x => (fst x, az (snd x))) (z_updateStatePublish z i id op q cur new).
Proof.
  intros H H0. unfold updateStatePublish, z_updateStatePublish, rassert. pose proof (toq_ok q H H0) as Hq.
  replace (qos_beq (toq q) Q0) with false by (destruct (toq q); [congruence|auto|auto]). replace (q =? 0) with false by lia.
  destruct (negb (id =? 0)); cbn [andb negb]; [|reflexivity]. rewrite same_validate by auto.
  destruct (z_validateTransitionPublish cur new op q); [|reflexivity]. destruct op.
  - destruct (pstate_beq cur new); [reflexivity|]. destruct i as [i|]; [|reflexivity]. cbn [abz outRecs].
    rewrite ab_arr, ab_update by reflexivity. destruct (z_updateRecord _ _ _ _) as [l|]; [|reflexivity]. cbn [rmap rbind]. unfold set_out, abz. cbn. rewrite ab_set. reflexivity.
  - cbn [abz inRecs]. rewrite ab_arr, ab_add by (auto; reflexivity). destruct (z_addRecord _ _ _ _) as [[st l]|]; [|reflexivity].
    cbn [rmap rbind abp fst snd]. unfold set_in, abz. cbn. rewrite ab_set. reflexivity.
Qed.
Lemma same_calc op q : ok_qos q -> z_calculateStatePublish op q = calculateStatePublish op (toq q).
Proof.
  unfold ok_qos. intro H. assert (K : q = 0 \/ q = 1 \/ q = 2) by lia. destruct K as [->|[->| ->]]; reflexivity.
Qed.
Lemma same_updpub_api z id op q : ok_qos q ->
  updateStatePublishApi (az z) id op (toq q) = rmap (fun x => (fst x, az (snd x))) (z_updateStatePublishApi z id op q).
Proof.
  intros H. unfold updateStatePublishApi, z_updateStatePublishApi. destruct (q =? 0) eqn:E0.
  { assert (q = 0) by lia. subst q. reflexivity. }
  assert (Hq0 : q <> 0) by lia. pose proof (toq_ok q H Hq0) as Hq.
  assert (W : forall X Y : R (status * option pstate * recs), match toq q with Q0 => X | _ => Y end = Y) by (intros; destruct (toq q); congruence).
  rewrite W. destruct (id =? 0) eqn:Ei; [reflexivity|]. cbv zeta. rewrite <- same_calc by auto. destruct op.
  - unfold findInRecord, z_findInRecord, rassert. rewrite Ei. cbn [negb rbind]. cbn [abz outRecs]. rewrite ab_arr, ab_find.
    destruct (z_find_loop _ _ _) as [[i r]|]; [|reflexivity]. cbn [option_map fst snd ab rqos rst].
    assert (Eq : qos_beq (toq (zqos r)) (toq q) = (zqos r =? q)).
    { destruct (toq_cases q) as [(-> & ->)|[(-> & ->)|(? & ? & ?)]]; [apply toq_1|apply toq_2|congruence]. }
    rewrite Eq. destruct (negb (zqos r =? q)); [reflexivity|]. rewrite same_updpub by auto.
    destruct (z_updateStatePublish _ _ _ _ _ _ _) as [[st s']|]; reflexivity.
  - rewrite same_updpub by auto. destruct (z_updateStatePublish _ _ _ _ _ _ _) as [[st s']|]; reflexivity.
Qed.
Lemma same_ack t op q : calculateStateAck t op (toq q) = z_calculateStateAck t op q.
Proof. unfold calculateStateAck, z_calculateStateAck. destruct t; rewrite ?toq_1, ?toq_2; reflexivity. Qed.
Lemma same_updack l i id cur new : updateStateAck (al l) i id cur new = rmap (@abp toq _) (z_updateStateAck l i id cur new).
Proof.
  unfold updateStateAck, z_updateStateAck. destruct (validateTransitionAck cur new); [|reflexivity].
  destruct (pstate_beq cur new); [reflexivity|]. rewrite ab_update by reflexivity.
  destruct (z_updateRecord _ _ _ _) as [l1|]; [|reflexivity]. cbn [rmap rbind].
  destruct (pstate_beq new PubRelSend); [|reflexivity]. change Q2 with (toq 2). rewrite ab_add; [reflexivity|reflexivity|lia|discriminate].
Qed.
Lemma same_remove z id : removeStateRecord (az z) id = rmap (fun x => (fst x, az (snd x))) (z_removeStateRecord z id).
Proof.
  unfold removeStateRecord, z_removeStateRecord. cbn [abz outRecs]. destruct (zout z) as [l|] eqn:El; [|reflexivity]. cbn [abo option_map].
  unfold findInRecord, z_findInRecord, rassert. destruct (negb (id =? 0)); [|reflexivity]. cbn [rbind]. rewrite ab_find.
  destruct (z_find_loop l 0 id) as [[i r]|]; [|reflexivity]. cbn [option_map fst snd ab rqos rst]. rewrite toq_1, toq_2.
  destruct (pstate_beq (zst r) StateNull); [reflexivity|]. destruct (_ && _); [reflexivity|]. rewrite ab_update by reflexivity.
  destruct (z_updateRecord _ _ _ _) as [l1|]; [|reflexivity]. cbn [rmap rbind fst snd]. unfold set_out, zset_out, abz. cbn. rewrite El. reflexivity.
Qed.
Lemma same_updack_api z id t op : updateStateAckApi (az z) id t op = rmap (fun x => (fst x, az (snd x))) (z_updateStateAckApi z id t op).
Proof.
  unfold updateStateAckApi, z_updateStateAckApi. destruct (id =? 0) eqn:Ei; [reflexivity|]. cbv zeta.
  assert (K : arr (if isPublishOutgoing t op then outRecs (az z) else inRecs (az z)) = al (zarr (if isPublishOutgoing t op then zout z else zin z))).
  { destruct (isPublishOutgoing t op); apply ab_arr. }
  rewrite K. generalize (zarr (if isPublishOutgoing t op then zout z else zin z)). intro l.
  unfold findInRecord, z_findInRecord, rassert. rewrite Ei. cbn [negb rbind]. rewrite ab_find.
  destruct (z_find_loop l 0 id) as [[i r]|]; [|reflexivity]. cbn [option_map fst snd ab rqos rst]. rewrite same_ack, same_updack.
  destruct (z_updateStateAck _ _ _ _ _) as [[st l1]|]; [|reflexivity]. cbn [rmap rbind abp fst snd].
  destruct (isPublishOutgoing t op); unfold set_out, set_in, abz; cbn; rewrite ab_set; reflexivity.
Qed.
Lemma same_step z c : ok_call c -> engine_step (az z) (zto_call c) = rmap (fun x => (fst x, az (snd x))) (z_step z c).
Proof.
  intro H. destruct c as [id q|id op q|id t op|id|]; cbn [engine_step zto_call z_step ok_call] in *.
  - rewrite ab_reserve; [|reflexivity|intro; now apply toq_ok]. destruct (z_reserveState z id q) as [[? ?]|]; reflexivity.
  - rewrite same_updpub_api by auto.
    destruct (z_updateStatePublishApi z id op q) as [[[? ?] ?]|]; reflexivity.
  - rewrite same_updack_api. destruct (z_updateStateAckApi z id t op) as [[[? ?] ?]|]; reflexivity.
  - rewrite same_remove. destruct (z_removeStateRecord z id) as [[? ?]|]; reflexivity.
  - cbn [rmap fst snd]. f_equal. f_equal. unfold resetRecs, z_resetRecs, abz. cbn [outRecs inRecs zout zin]. rewrite !ab_arr, !ab_len.
    rewrite <- !(ab_repeat toq eq_refl), !ab_set. reflexivity.
Qed.
Lemma same_run cs : forall z, Forall ok_call cs -> engine_run (az z) (map zto_call cs) = rmap (fun x => (fst x, az (snd x))) (z_run z cs).
Proof.
  induction cs as [|c cs IH]; intros z H; [reflexivity|]. apply Forall_cons_iff in H. destruct H as (H1 & H2).
  cbn [map engine_run z_run]. rewrite same_step by auto. destruct (z_step z c) as [[r s1]|]; [|reflexivity]. cbn [rmap rbind fst snd].
  rewrite IH by auto. destruct (z_run s1 cs) as [[rs s2]|]; reflexivity.
Qed.

(** ** A record with a QoS outside the enumeration *)
Definition zslots (l : list zrec) : Prop := Forall (fun r => zid r = 0 -> r = zempty) l.

Section Bad.
Variables (id q : Z).
Hypothesis Hid : id <> 0.
Hypothesis Hq : 2 < q.
Let bad := mkZ id q PublishSend.
Definition fq (x : Z) : qos := if x =? 0 then Q0 else if x =? q then Q2 else Q1.
Lemma fq0 : fq 0 = Q0. Proof. reflexivity. Qed.
Lemma fq_pos x : x <> 0 -> fq x <> Q0.
Proof. intro. unfold fq. replace (x =? 0) with false by lia. destruct (x =? q); discriminate. Qed.
Lemma fq_q : fq q = Q2.
Proof. unfold fq. replace (q =? 0) with false by lia. now rewrite Z.eqb_refl. Qed.
Lemma fq_inv x : fq x = Q2 -> x = q.
Proof. unfold fq. destruct (x =? 0) eqn:E; [discriminate|]. destruct (x =? q) eqn:E2; [lia|discriminate]. Qed.

Lemma zslots_ab l : slots_ok (abl fq l) <-> zslots l.
Proof.
  unfold slots_ok, zslots, abl. rewrite Forall_map. unfold slot_ok. split; intro H; (eapply Forall_impl; [|exact H]); intros [i x st] K; cbn in *; intro E.
  - specialize (K E). inversion K as [[E1 E2 E3]]. subst. unfold zempty. f_equal. destruct (Z.eq_dec x 0) as [|N]; auto. now apply fq_pos in N.
  - specialize (K E). inversion K; subst. reflexivity.
Qed.
Lemma bad_abs l : In bad l <-> In (F id Q2 PublishSend) (abs (abl fq l)).
Proof.
  unfold abs, abl. rewrite in_map_iff. split.
  - intro H. exists (ab fq bad). split; [unfold ab, to_flight, bad; cbn; now rewrite fq_q|]. apply filter_In. split; [now apply in_map|].
    unfold live, ab, bad. cbn. lia.
  - intros (r & E & H). apply filter_In in H. destruct H as (H & _). apply in_map_iff in H. destruct H as (x & <- & H).
    destruct x as [i y st]. unfold to_flight, ab in E. cbn in E. inversion E as [[E1 E2 E3]]. apply fq_inv in E2. subst. exact H.
Qed.

Lemma bad_add l i x st r l' : zslots l -> z_addRecord l i x st = Ok (r, l') ->
  zslots l' /\ (In bad l -> In bad l' /\ (i = id -> r = StateCollision)).
Proof.
  intros Hs H.
  assert (Hx : x <> 0 /\ i <> 0 /\ l <> []).
  { unfold z_addRecord, rassert in H. destruct (negb (i =? 0)) eqn:E1, (negb (x =? 0)) eqn:E2; cbn [andb] in H; try discriminate.
    split; [lia|]. split; [lia|]. intros ->. discriminate. }
  destruct Hx as (Hx & Hi & Hl). pose proof (ab_add fq fq0 l i x st Hx (fq_pos x Hx)) as E. rewrite H in E. cbn [rmap abp fst snd] in E.
  apply zslots_ab in Hs. destruct (addRecord_spec (abl fq l) i (fq x) st Hs) as (l2 & K1 & K2 & K3 & K4); auto.
  { destruct l; [congruence|discriminate]. } { now apply fq_pos. }
  rewrite E in K1. inversion K1 as [[E1 E2]]. rewrite <- E2 in *. split; [now apply zslots_ab|].
  intro HB. rewrite bad_abs in *. rewrite K2. unfold spec_add.
  destruct (in_flight (abs (abl fq l)) i) eqn:Ef.
  - split; auto.
  - split; [destruct (_ <? _)%nat; cbn [snd]; auto; apply in_or_app; auto|]. intros ->. exfalso.
    unfold in_flight in Ef. assert (existsb (fun f => f_id f =? id) (abs (abl fq l)) = true); [|congruence].
    apply existsb_exists. exists (F id Q2 PublishSend). split; auto. cbn. lia.
Qed.

Lemma upd_other {A} (l : list A) i x y b : nth_error l i = Some x -> x <> b -> In b l -> In b (upd l i y).
Proof.
  revert i. induction l as [|h l IH]; intros [|i] H N Hin; cbn in *; try discriminate.
  - inversion H; subst. destruct Hin; [congruence|auto].
  - destruct Hin as [|Hin]; [auto|right; eapply IH; eauto].
Qed.
Lemma upd_all {A} (P : A -> Prop) l i y : Forall P l -> P y -> Forall P (upd l i y).
Proof. revert i. induction l as [|h l IH]; intros [|i] H Hy; cbn; auto; apply Forall_cons_iff in H; destruct H; constructor; auto. Qed.
Lemma bad_update l i r new d l' : nth_error l i = Some r -> zid r <> 0 -> zslots l -> z_updateRecord l i new d = Ok l' ->
  zslots l' /\ (r <> bad -> In bad l -> In bad l').
Proof.
  intros E Hr Hs H. unfold z_updateRecord in H. rewrite E in H. inversion H; subst. split.
  - destruct d; apply upd_all; auto. cbn. lia.
  - intros N Hb. destruct d; eapply upd_other; eauto.
Qed.
Lemma zfind_nth l i : forall k r n, z_find_loop l k i = Some (n, r) -> exists m, n = (k + m)%nat /\ nth_error l m = Some r /\ zid r = i.
Proof.
  induction l as [|h l IH]; intros k r n H; cbn in H; [discriminate|]. destruct (zid h =? i) eqn:E.
  - inversion H; subst. exists 0%nat. split; [lia|]. split; [reflexivity|lia].
  - apply IH in H. destruct H as (m & -> & K). exists (S m). split; [lia|]. exact K.
Qed.

Definition Holds (z : zrecs) : Prop := zslots (zarr (zout z)) /\ zslots (zarr (zin z)) /\ In bad (zarr (zout z)).
Lemma holds_out z l : Holds z -> zslots l -> In bad l -> Holds (zset_out z l).
Proof. intros (H1 & H2 & H3) K1 K2. unfold Holds, zset_out. cbn. destruct (zout z); cbn in *; [auto|contradiction]. Qed.
Lemma holds_in z l : Holds z -> zslots l -> Holds (zset_in z l).
Proof. intros (H1 & H2 & H3) K1. unfold Holds, zset_in. cbn. destruct (zin z); cbn in *; auto. Qed.

Lemma bad_step z c r z' : Holds z -> c <> ZReset -> z_step z c = Ok (r, z') ->
  Holds z' /\ (forall x, c = ZReserve id x -> x <> 0 -> fst r = StateCollision).
Proof.
  intros HH Hc H. pose proof HH as (H1 & H2 & H3). destruct c as [i x|i op x|i t op|i|]; [| | | |congruence]; cbn [z_step] in H.
  - unfold z_reserveState in H. destruct (x =? 0) eqn:Ex.
    { cbn in H. inversion H; subst. split; auto. intros y E. inversion E; subst. lia. }
    destruct (i =? 0) eqn:Ei. { cbn in H. inversion H; subst. split; auto. intros y E. inversion E; subst. lia. }
    destruct (z_addRecord _ _ _ _) as [[st l]|] eqn:Ea; [|discriminate]. cbn in H. inversion H; subst.
    apply bad_add in Ea; auto. destruct Ea as (A1 & A2). destruct (A2 H3) as (A3 & A4). split; [now apply holds_out|].
    intros y E _. inversion E; subst. auto.
  - split; [|discriminate]. unfold z_updateStatePublishApi in H. destruct (x =? 0) eqn:Ex; [cbn in H; inversion H; subst; auto|].
    destruct (i =? 0) eqn:Ei; [cbn in H; inversion H; subst; auto|]. destruct op.
    + unfold z_findInRecord, rassert in H. rewrite Ei in H. cbn [negb rbind] in H.
      destruct (z_find_loop _ _ _) as [[n r0]|] eqn:Ef; [|cbn in H; inversion H; subst; auto].
      destruct (negb (zqos r0 =? x)) eqn:Eq; [cbn in H; inversion H; subst; auto|]. unfold z_updateStatePublish, rassert in H.
      rewrite Ei, Ex in H. cbn [negb andb] in H. destruct (z_validateTransitionPublish _ _ _ _) eqn:Ev; [|cbn in H; inversion H; subst; auto].
      destruct (pstate_beq _ _); [cbn in H; inversion H; subst; auto|]. destruct (z_updateRecord _ _ _ _) as [l|] eqn:Eu; [|discriminate].
      cbn in H. inversion H; subst. apply zfind_nth in Ef. destruct Ef as (m & -> & Em & Eid). cbn [plus] in Eu.
      eapply bad_update in Eu; eauto; [|lia]. destruct Eu as (U1 & U2). apply holds_out; auto. apply U2; auto. intros ->.
      unfold bad in Ev, Eq. cbn in Ev, Eq. assert (x = q) by lia. subst x. replace (q =? 1) with false in Ev by lia. replace (q =? 2) with false in Ev by lia. discriminate.
    + unfold z_updateStatePublish, rassert in H. rewrite Ei, Ex in H. cbn [negb andb] in H.
      destruct (z_validateTransitionPublish _ _ _ _); [|cbn in H; inversion H; subst; auto].
      destruct (z_addRecord _ _ _ _) as [[st l]|] eqn:Ea; [|discriminate]. cbn in H. inversion H; subst.
      apply bad_add in Ea; auto. destruct Ea as (A1 & _). now apply holds_in.
  - split; [|discriminate]. unfold z_updateStateAckApi in H. destruct (i =? 0) eqn:Ei; [cbn in H; inversion H; subst; auto|].
    unfold z_findInRecord, rassert in H. rewrite Ei in H. cbn [negb rbind] in H. cbv zeta in H.
    destruct (z_find_loop _ _ _) as [[n r0]|] eqn:Ef; [|cbn in H; inversion H; subst; auto].
    destruct (z_updateStateAck _ _ _ _ _) as [[st l]|] eqn:Eu; [|discriminate]. cbn in H. inversion H; subst. clear H.
    apply zfind_nth in Ef. destruct Ef as (m & -> & Em & Eid). cbn [plus] in Eu. unfold z_updateStateAck in Eu.
    assert (Hsl : zslots (zarr (if isPublishOutgoing t op then zout z else zin z))) by (destruct (isPublishOutgoing t op); auto).
    assert (K : zslots l /\ (In bad (zarr (if isPublishOutgoing t op then zout z else zin z)) -> In bad l)).
    { destruct (validateTransitionAck _ _) eqn:Ev; [|inversion Eu; subst; auto]. destruct (pstate_beq (zst r0) _); [inversion Eu; subst; auto|].
      destruct (z_updateRecord _ _ _ _) as [l1|] eqn:E1; [|discriminate]. cbn [rbind] in Eu.
      eapply bad_update in E1; eauto; [|lia]. destruct E1 as (U1 & U2).
      assert (N : r0 <> bad). { intros ->. unfold bad in Ev. cbn in Ev. discriminate. }
      destruct (pstate_beq _ PubRelSend).
      - apply bad_add in Eu; auto. destruct Eu as (A1 & A2). split; auto. intro Hb. apply A2. auto.
      - inversion Eu; subst. auto. }
    destruct K as (K1 & K2). destruct (isPublishOutgoing t op); [apply holds_out|apply holds_in]; auto.
  - split; [|discriminate]. unfold z_removeStateRecord in H. destruct (zout z) as [l|] eqn:El; [|cbn in H; inversion H; subst; auto].
    unfold z_findInRecord, rassert in H. destruct (negb (i =? 0)) eqn:Ei; [|discriminate]. cbn [rbind] in H.
    destruct (z_find_loop _ _ _) as [[n r0]|] eqn:Ef; [|cbn in H; inversion H; subst; auto].
    destruct (pstate_beq _ _); [cbn in H; inversion H; subst; auto|]. destruct (_ && _) eqn:E12; [cbn in H; inversion H; subst; auto|].
    destruct (z_updateRecord _ _ _ _) as [l1|] eqn:E1; [|discriminate]. cbn in H. inversion H; subst.
    apply zfind_nth in Ef. destruct Ef as (m & -> & Em & Eid). cbn [plus] in E1. cbn [zarr] in H1, H3.
    eapply bad_update in E1; eauto; [|lia]. destruct E1 as (U1 & U2).
    assert (N : r0 <> bad). { intros ->. unfold bad in E12. cbn in E12. lia. }
    apply holds_out; auto.
Qed.
Lemma bad_run cs : forall z rs z', Holds z -> ~ In ZReset cs -> z_run z cs = Ok (rs, z') ->
  Holds z' /\ Forall2 (fun c (r : status * option pstate) => forall x, c = ZReserve id x -> x <> 0 -> fst r = StateCollision) cs rs.
Proof.
  induction cs as [|c cs IH]; intros z rs z' H N E; cbn [z_run] in E.
  - inversion E; subst. auto.
  - destruct (z_step z c) as [[r s1]|] eqn:E1; [|discriminate]. cbn [rbind] in E. destruct (z_run s1 cs) as [[rs1 s2]|] eqn:E2; [|discriminate].
    cbn [rbind] in E. inversion E; subst. apply bad_step in E1; auto; [|intros ->; apply N; now left]. destruct E1 as (A & B).
    apply IH in E2; auto; [|intro K; apply N; now right]. destruct E2 as (C & D). split; auto.
Qed.
(** some cursor of MQTT_PublishToResend yields it *)
Lemma bad_resent z : Holds z -> exists c c', z_publishToResend z c = (id, c').
Proof.
  intros (_ & _ & H). apply In_nth_error in H. destruct H as (n & H). exists n, (S n). unfold z_publishToResend, z_stateSelect.
  assert (E : exists t, skipn n (zarr (zout z)) = bad :: t).
  { revert H. generalize (zarr (zout z)) as l. induction n as [|n IH]; intros [|h l] H; cbn in *; try discriminate.
    - inversion H; subst. eauto.
    - auto. }
  destruct E as (t & ->). reflexivity.
Qed.
End Bad.

(** ** MQTT_Publish with values of the enumeration: the same as CoreModel *)
Definition withrecs (r : recs) (s : st) : st := mkSt (set_recs (s_ctx s) r) (s_env s).
Definition rput {A} (r : recs) (x : res A) : res A :=
  match x with Ret a s t => Ret a (withrecs r s) t | Undef => Undef | Stuck => Stuck end.
Definition free {A} (m : Mo A) : Prop := forall r s, m (withrecs r s) = rput r (m s).
Lemma free_ret {A} (a : A) : free (ret a). Proof. intros r s. reflexivity. Qed.
Lemma free_bind {A B} (m : Mo A) (k : A -> Mo B) : free m -> (forall a, free (k a)) -> free (bind m k).
Proof.
  intros Hm Hk r s. unfold bind. rewrite Hm. destruct (m s) as [a s1 t1| |]; [|reflexivity|reflexivity]. cbn [rput]. rewrite Hk.
  destruct (k a s1) as [b s2 t2| |]; reflexivity.
Qed.
Lemma free_lift {A} (x : R A) : free (lift x). Proof. intros r s. destruct x; reflexivity. Qed.
Lemma free_massert b : free (massert b). Proof. intros r s. destruct b; reflexivity. Qed.
Lemma free_gete : free gete. Proof. intros r s. reflexivity. Qed.
Lemma free_time : free getTime. Proof. intros r s. unfold getTime. cbn [withrecs s_env]. destruct (e_times (s_env s)); reflexivity. Qed.
Lemma free_tsend b : free (tsend b).
Proof. intros r s. unfold tsend. cbn [withrecs s_env]. destruct (e_sends (s_env s)); [reflexivity|]. destruct (_ <? _); reflexivity. Qed.
Lemma free_store id vs : free (store_publish id vs).
Proof. intros r s. reflexivity. Qed.
Lemma free_modc g : (forall r c, g (set_recs c r) = set_recs (g c) r) -> free (modc g).
Proof. intros H r s. unfold modc, withrecs. cbn. now rewrite H. Qed.
Lemma free_getc {B} (k : context -> Mo B) : (forall c r, k (set_recs c r) = k c) -> (forall c, free (k c)) -> free (bind getc k).
Proof. intros H Hk r s. unfold bind, getc. cbn [withrecs s_ctx]. rewrite H. fold (withrecs r s). rewrite Hk. destruct (k _ s); reflexivity. Qed.

Section Same.
Variable G : cfg.
Lemma free_sendv fuel : forall vs n t0 sent, free (sendv_loop G fuel vs n t0 sent).
Proof.
  induction fuel as [|fuel IH]; intros vs n t0 sent; cbn [sendv_loop]; [intros r s; reflexivity|].
  destruct (_ && _); [|apply free_ret]. apply free_bind.
  { destruct vs; [intros r s; reflexivity|apply free_tsend]. }
  intro res. apply free_bind.
  { destruct (0 <? res).
    - apply free_bind; [apply free_massert|]. intros _. apply free_bind; [apply free_time|]. intro t. apply free_bind; [|intros; apply free_ret].
      apply free_modc. reflexivity.
    - destruct (res <? 0); [|apply free_ret]. apply free_bind; [|intros; apply free_ret]. apply free_modc.
      intros r c. unfold transport_broke. cbn. destruct (cstatus_beq _ _); reflexivity. }
  intro sent1. apply free_bind; [apply free_time|]. intro now. destruct (_ <? _); [apply free_ret|apply IH].
Qed.
Lemma free_sendPublish p h hs id : free (sendPublishWithoutCopy G p h hs id).
Proof.
  unfold sendPublishWithoutCopy. apply free_getc; [reflexivity|]. intro c. apply free_bind.
  - destruct (_ && _); [|apply free_ret].
    destruct (if negb (p_dup p) then _ else _) as [[st b] changed]. apply free_bind.
    + destruct (status_beq st Success); [|apply free_ret]. apply free_bind; [apply free_lift|]. intro vs.
      apply free_bind; [apply free_store|]. intros; apply free_ret.
    + intro st1. destruct (_ && _); [|apply free_ret]. destruct (updateDuplicatePublishFlag _ _). apply free_ret.
  - intros (st1, h1). destruct (status_beq st1 Success); [|apply free_ret]. apply free_bind; [apply free_lift|]. intro vs.
    apply free_bind; [|intros; apply free_ret]. unfold sendMessageVector. apply free_bind; [apply free_time|]. intro t0.
    apply free_bind; [apply free_gete|]. intro e. apply free_sendv.
Qed.

Definition after (x : res (status * zrecs)) : res status :=
  match x with Ret (st, z) s t => Ret st (withrecs (abz toq z) s) t | Undef => Undef | Stuck => Stuck end.
Lemma z_valid_known q : ok_qos q -> q = 0 \/ q = 1 \/ q = 2.
Proof. unfold ok_qos. lia. Qed.
Lemma sendPublish_above p q h hs id s : ok_qos q ->
  sendPublishWithoutCopy G (above p q) h hs id s = sendPublishWithoutCopy G (known p q) h hs id s.
Proof. intro H. apply z_valid_known in H. destruct H as [->|[->| ->]]; reflexivity. Qed.
Lemma size_above p q : ok_qos q -> getPublishPacketSize (above p q) = getPublishPacketSize (known p q).
Proof. intro H. apply z_valid_known in H. destruct H as [->|[->| ->]]; reflexivity. Qed.
Lemma known_qos p q : p_qos (known p q) = toq q. Proof. reflexivity. Qed.
Lemma withrecs2 r r' s : withrecs r (withrecs r' s) = withrecs r s.
Proof. reflexivity. Qed.

Definition sim {A B} (z : zrecs) (ra : B -> A * zrecs) (m : Mo A) (mz : Mo B) : Prop := forall s,
  m (withrecs (abz toq z) s) = match mz s with Ret b s' t => Ret (fst (ra b)) (withrecs (abz toq (snd (ra b))) s') t | Undef => Undef | Stuck => Stuck end.
Lemma sim_bind {A A' B B'} z (ra : A' -> A * zrecs) (rb : B' -> B * zrecs) m mz (k : A -> Mo B) (kz : A' -> Mo B') :
  sim z ra m mz -> (forall x, sim (snd (ra x)) rb (k (fst (ra x))) (kz x)) -> sim z rb (bind m k) (bind mz kz).
Proof.
  intros Hm Hk s. unfold bind. rewrite Hm. destruct (mz s) as [x s1 t1| |]; [|reflexivity|reflexivity]. rewrite Hk.
  destruct (kz x s1) as [y s2 t2| |]; reflexivity.
Qed.
Lemma sim_free {A} z (m : Mo A) : free m -> sim z (fun a => (a, z)) m m.
Proof. intros H s. rewrite H. destruct (m s); reflexivity. Qed.
Lemma sim_ret {A B} z (ra : B -> A * zrecs) a b : ra b = (a, z) -> sim z ra (ret a) (ret b).
Proof. intros H s. unfold ret. rewrite H. reflexivity. Qed.
Lemma sim_recs {A B} z (ra : B -> A * zrecs) (g : recs -> R (A * recs)) gz :
  g (abz toq z) = rmap (fun x => (fst (ra x), abz toq (snd (ra x)))) gz -> sim z ra (on_recs g) (lift gz).
Proof. intros H s. unfold on_recs, lift, withrecs. cbn [s_ctx set_recs x_recs]. rewrite H. destruct gz as [x|]; reflexivity. Qed.
Lemma sim_pre {A A' B} z (rb : B -> A * zrecs) (m : Mo A') (k : A' -> Mo A) (kz : A' -> Mo B) : free m ->
  (forall x, sim z rb (k x) (kz x)) -> sim z rb (bind m k) (bind m kz).
Proof. intros H Hk. apply sim_bind with (ra := fun x => (x, z)); [now apply sim_free|exact Hk]. Qed.

Lemma sim_getc {A B} z (rb : B -> A * zrecs) (k : context -> Mo A) kz :
  (forall c, sim z rb (k (set_recs c (abz toq z))) (kz c)) -> sim z rb (bind getc k) (bind getc kz).
Proof. intros H s. unfold bind, getc. cbn [withrecs s_ctx]. fold (withrecs (abz toq z) s). rewrite H. destruct (kz _ s); reflexivity. Qed.

Lemma publish_known p q id z s : ok_qos q -> publish G (known p q) id (withrecs (abz toq z) s) = after (z_publish G p q id z s).
Proof.
  intro Hq.
  assert (K : sim z (fun x => x) (publish G (known p q) id) (z_publish G p q id z)).
  2: { rewrite K. unfold after. destruct (z_publish G p q id z s) as [[? ?] ? ?| |]; reflexivity. }
  clear s. unfold publish, z_publish. apply sim_getc. intro c.
  assert (Ev : validatePublishParams (set_recs c (abz toq z)) (known p q) id = z_validatePublishParams z p q id).
  { unfold validatePublishParams, z_validatePublishParams. cbn [set_recs x_recs abz outRecs]. rewrite known_qos. cbn [known with_qos p_paylen p_payload].
    apply z_valid_known in Hq. destruct Hq as [->|[->| ->]]; cbn; destruct (zout z); reflexivity. }
  rewrite Ev. destruct (status_beq (z_validatePublishParams z p q id) Success); [|now apply sim_ret].
  rewrite size_above by auto. destruct (getPublishPacketSize (known p q)) as [st0 o]. destruct st0; try now apply sim_ret.
  destruct o as [[rl ps]|]; [|now apply sim_ret]. apply sim_pre; [apply free_lift|]. intros (h, hs).
  change (must_be_connected (set_recs c (abz toq z))) with (must_be_connected c).
  destruct (status_beq (must_be_connected c) Success); [|now apply sim_ret].
  rewrite known_qos. assert (Eb : negb (qos_beq (toq q) Q0) = (0 <? q)).
  { apply z_valid_known in Hq. destruct Hq as [->|[->| ->]]; reflexivity. }
  rewrite Eb. apply sim_bind with (ra := fun x => x).
  - destruct (0 <? q); [|now apply sim_ret]. apply sim_bind with (ra := fun x => x).
    + apply sim_recs. apply ab_reserve; [reflexivity|]. intro. now apply toq_ok.
    + intros (st, z1). now apply sim_ret.
  - intros (st, z1). cbn [fst snd]. apply sim_bind with (ra := fun x => (x, z1)).
    + destruct (status_beq st Success); [|now apply sim_ret]. intro s. rewrite sendPublish_above by auto. apply (sim_free z1). apply free_sendPublish.
    + intro st1. cbn [fst snd]. destruct (_ && _); [|now apply sim_ret].
      apply sim_bind with (ra := fun x : status * option pstate * zrecs => x).
      * apply sim_recs. now apply same_updpub_api.
      * intros ((st2, ns), z2). now apply sim_ret.
Qed.
End Same.

(** ** MQTT_Publish with a value outside the enumeration *)
Definition as_qos0 (m : publish_msg) : publish_msg :=
  mkPublish (pm_dup m) Q0 (pm_retain m) (pm_topic m) 0 (be16 (pm_id m) ++ pm_payload m).

Lemma bad_reserve z id q : id <> 0 -> 2 < q -> zslots (zarr (zout z)) -> zout z <> None ->
  Forall (fun r => zid r <> id) (zarr (zout z)) -> In zempty (zarr (zout z)) ->
  exists z1, z_reserveState z id q = Ok (Success, z1) /\ zin z1 = zin z /\ zslots (zarr (zout z1)) /\
    In (mkZ id q PublishSend) (zarr (zout z1)) /\ (forall r, In r (zarr (zout z1)) -> zid r = id -> r = mkZ id q PublishSend).
Proof.
  intros Hid Hq Hs Ho Hn Hf. unfold z_reserveState. replace (q =? 0) with false by lia. replace (id =? 0) with false by lia.
  destruct (zout z) as [l|] eqn:El; [|congruence]. cbn [zarr] in *.
  assert (Hl : abl (fq q) l <> []). { destruct l; [destruct Hf|discriminate]. }
  pose proof Hs as Hs0. apply (zslots_ab q) in Hs0.
  destruct (addRecord_spec (abl (fq q) l) id (fq q q) PublishSend Hs0 Hl Hid) as (l2 & K1 & K2 & K3 & K4).
  { apply fq_pos. lia. }
  assert (Ei : in_flight (abs (abl (fq q) l)) id = false).
  { rewrite in_flight_abs. destruct (existsb _ _) eqn:E; auto. apply existsb_exists in E. destruct E as (r & Hin & E).
    apply in_map_iff in Hin. destruct Hin as (x & <- & Hin). rewrite Forall_forall in Hn. specialize (Hn _ Hin). cbn in E. lia. }
  assert (Ec : (length (abs (abl (fq q) l)) <? length (abl (fq q) l))%nat = true).
  { unfold abs. rewrite map_length, (ab_len (fq q)). apply in_split in Hf. destruct Hf as (a & b & ->).
    unfold abl. rewrite map_app, filter_app, app_length. cbn [map filter live ab zempty rid zid Z.eqb negb].
    pose proof (live_length_le (map (ab (fq q)) a)). pose proof (live_length_le (map (ab (fq q)) b)).
    rewrite !map_length in *. rewrite app_length. cbn [length]. lia. }
  unfold spec_add in K1, K2. rewrite Ei, Ec in K1, K2. cbn [fst snd] in K1, K2.
  rewrite (ab_add (fq q) eq_refl) in K1; [|lia|apply fq_pos; lia].
  destruct (z_addRecord l id q PublishSend) as [[st l3]|] eqn:Ea; [|discriminate]. cbn [rmap abp fst snd] in K1. inversion K1; subst st l2.
  cbn [rbind]. eexists. split; [reflexivity|]. unfold zset_out. rewrite El. cbn [zout zin zset_arr zarr]. split; auto.
  split; [now apply (zslots_ab q)|].
  assert (HB : forall r, In r l3 -> zid r = id -> r = mkZ id q PublishSend).
  { intros r Hr Er.
    assert (K : In (to_flight (ab (fq q) r)) (abs (abl (fq q) l3))).
    { unfold abs. apply in_map. apply filter_In. split; [now apply in_map|]. unfold live. cbn. lia. }
    rewrite K2 in K. apply in_app_or in K. destruct K as [K|[K|[]]].
    - exfalso. assert (in_flight (abs (abl (fq q) l)) id = true); [|congruence]. apply existsb_exists. exists (to_flight (ab (fq q) r)). split; auto. cbn. lia.
    - destruct r as [a b c]. unfold to_flight, ab in K. cbn in K. inversion K as [[E1 E2 E3]]. rewrite (fq_q q Hq) in E2. symmetry in E2. apply fq_inv in E2; auto. subst. reflexivity. }
  split; auto. apply (bad_abs id q Hid Hq). rewrite K2. apply in_or_app. right. left. now rewrite (fq_q q Hq).
Qed.
Lemma bad_published z id q : id <> 0 -> 2 < q -> In (mkZ id q PublishSend) (zarr (zout z)) ->
  (forall r, In r (zarr (zout z)) -> zid r = id -> r = mkZ id q PublishSend) ->
  z_updateStatePublishApi z id OpSend q = Ok (IllegalState, None, z).
Proof.
  intros Hid Hq Hb Hu. unfold z_updateStatePublishApi. replace (q =? 0) with false by lia. replace (id =? 0) with false by lia.
  unfold z_findInRecord, rassert. replace (id =? 0) with false by lia. cbn [negb rbind].
  destruct (z_find_loop (zarr (zout z)) 0 id) as [[n r]|] eqn:Ef.
  - apply zfind_nth in Ef. destruct Ef as (m & -> & Em & Eid). apply nth_error_In in Em. rewrite (Hu _ Em Eid). cbn [zqos zst]. rewrite Z.eqb_refl. cbn [negb].
    unfold z_updateStatePublish, rassert. replace (q =? 0) with false by lia. replace (id =? 0) with false by lia. cbn [negb andb].
    unfold z_validateTransitionPublish. replace (q =? 1) with false by lia. replace (q =? 2) with false by lia. reflexivity.
  - exfalso. revert Hb Ef. generalize (zarr (zout z)) as l, 0%nat as k. induction l as [|h l IH]; intros k [] Ef; cbn [z_find_loop] in Ef.
    + subst h. cbn in Ef. rewrite Z.eqb_refl in Ef. discriminate.
    + destruct (zid h =? id); [discriminate|]. eauto.
Qed.

Section Invalid.
Variable G : cfg.
Lemma sendPublish_first p h hs id s st s' t : let b0 := nth 0 h 0 in
  is_byte b0 -> b0 / 16 = 3 -> (p_dup p = false -> b0 / 8 mod 2 = 0) ->
  sendPublishWithoutCopy G p h hs id s = Ret st s' t ->
  exists ok e te, outs te = [] /\
    (ok = false /\ st = PublishStoreFailed /\ s' = mkSt (s_ctx s) e /\ t = te \/
     ok = true /\ exists vs sok t1, pub_vectors p h hs id = Ok vs /\
       sentb (concat vs) (mkSt (s_ctx s) e) sok s' t1 /\ st = sendst sok /\ t = te ++ t1).
Proof.
  intros b0 Hb H3 H0 H. subst b0.
  assert (Hne : h <> []). { intros ->. discriminate. }
  unfold sendPublishWithoutCopy in *. mgo H.
  destruct (negb (qos_beq (p_qos p) Q0) && x_retr (s_ctx s)) eqn:Eq.
  - assert (K : exists b changed, (if negb (p_dup p)
         then let '(st, b) := updateDuplicatePublishFlag (nth 0 h 0) true in (st, b, status_beq st Success)
         else (Success, nth 0 h 0, false)) = (Success, b, changed) /\
         (changed = false -> b = nth 0 h 0) /\
         (changed = true -> updateDuplicatePublishFlag b false = (Success, nth 0 h 0))).
    { destruct (p_dup p) eqn:Ed; cbn [negb].
      - exists (nth 0 h 0), false. repeat split; auto. congruence.
      - destruct (dup_set_clear _ Hb H3 (H0 eq_refl)) as (b' & -> & E2). exists b', true.
        repeat split; auto. congruence. }
    destruct K as (b & changed & EK & Ec & Ed). rewrite EK in H1. clear EK.
    mgo H1. match goal with HS : store_publish _ _ _ = _ |- _ => rename HS into Hst end.
    apply store_publish_inv in Hst. destruct Hst as (Eok & -> & ->).
    match goal with |- context [[EStore id ?v ?o]] => exists o, (env_stores (s_env s) (tl (e_stores (s_env s)))), [EStore id v o] end. split; [reflexivity|].
    match type of Eok with ?o = _ => destruct o end.
    + right. split; auto.
      assert (Hq : p0 = Success /\ q = h /\ s0 = mkSt (s_ctx s) (env_stores (s_env s) (tl (e_stores (s_env s)))) /\ t2 = []).
      { destruct changed; sbeq H1.
        - rewrite set_first_nth in H1 by auto. rewrite (Ed eq_refl) in H1. mgo H1. inversion Er; subst.
          repeat split; auto. rewrite set_first_twice. apply set_first_id. destruct h; auto; congruence.
        - mgo H1. inversion Er; subst. repeat split; auto. rewrite (Ec eq_refl). apply set_first_id.
          destruct h; auto; congruence. }
      destruct Hq as (-> & -> & -> & ->). sbeq H.
      apply pub_send in H. destruct H as (vs & sok & K1 & K2 & K3).
      exists vs, sok, t0. repeat split; auto.
    + left. split; auto. sbeq H1. mgo H1. inversion Er; subst. sbeq H. mgo H. auto.
  - mgo H1. inversion Er; subst. sbeq H. apply pub_send in H. destruct H as (vs & sok & K1 & K2 & K3).
    exists true, (s_env s), []. repeat split; auto. right. split; auto.
    exists vs, sok, t0. repeat split; auto.
Qed.

Lemma as_qos0_packet m : pm_qos m = Q1 -> 0 <= pm_id m < 65536 ->
  set_first (publish_packet m) (publish_first (as_qos0 m)) = publish_packet (as_qos0 m).
Proof.
  intros Hq Hi. unfold publish_packet, packet. cbn [set_first]. unfold publish_body, publish_head. rewrite Hq. cbn [as_qos0 pm_topic pm_qos pm_payload].
  rewrite app_nil_r, <- !app_assoc. reflexivity.
Qed.

Lemma invalid_publish p q id m z s st z' s' t :
  2 < q -> 1 <= id <= 65535 -> pub_means (with_qos p Q1) id m -> pm_topic m <> [] -> zlen (publish_body m) <= 268435450 ->
  zout z <> None -> zslots (zarr (zout z)) -> Forall (fun r => zid r <> id) (zarr (zout z)) -> In zempty (zarr (zout z)) ->
  x_status (s_ctx s) = Connected -> z_publish G p q id z s = Ret (st, z') s' t ->
  In (mkZ id q PublishSend) (zarr (zout z')) /\ zslots (zarr (zout z')) /\ zin z' = zin z /\
  (st = IllegalState /\ outs t = publish_packet (as_qos0 m) \/
   (st = SendFailed \/ st = PublishStoreFailed) /\ exists k, (k < length (publish_packet (as_qos0 m)))%nat /\ outs t = firstn k (publish_packet (as_qos0 m))).
Proof.
  intros Hq Hid Hm Hne Hlim Ho Hs Hn Hf Hc H.
  assert (Hab : above p q = with_qos p Q1) by (unfold above; now replace (q =? 0) with false by lia).
  assert (Hkn : known p q = with_qos p Q0) by (unfold known; replace (q =? 1) with false by lia; now replace (q =? 2) with false by lia).
  unfold z_publish in H. apply bind_inv in H. destruct H as (c & s0 & t0 & t1 & E0 & H & Et). apply getc_inv in E0. destruct E0 as (-> & -> & ->).
  assert (Ev : z_validatePublishParams z p q id = Success).
  { unfold z_validatePublishParams. replace (id =? 0) with false by lia. rewrite andb_false_r.
    destruct Hm as (_ & _ & _ & _ & _ & _ & _ & Hp). cbn [with_qos p_payload p_paylen] in Hp.
    assert (Ep : (0 <? p_paylen p) && match p_payload p with None => true | _ => false end = false).
    { destruct (0 <? p_paylen p) eqn:E; auto. destruct Hp as [(x & -> & _)|(_ & E2 & _)]; [reflexivity|lia]. }
    rewrite Ep. destruct (zout z); [reflexivity|congruence]. }
  rewrite Ev in H. sbeq H. rewrite Hab, Hkn in H. rewrite (publish_size_ok _ _ _ Hm Hne) in H.
  replace (zlen (publish_body m) <=? 268435450) with true in H by lia. cbv iota beta in H.
  apply bind_inv in H. destruct H as (hh & s1 & t2 & t3 & E0 & H & Et3). apply lift_inv in E0. destruct E0 as (Eh & -> & ->). destruct hh as [h hs].
  assert (Em : must_be_connected (s_ctx s) = Success) by (unfold must_be_connected; now rewrite Hc). rewrite Em in H. sbeq H.
  replace (0 <? q) with true in H by lia. destruct (bad_reserve z id q) as (z1 & R1 & R2 & R3 & R4 & R5); auto; [lia|].
  apply bind_inv in H. destruct H as (x & s1 & t4 & t5 & E0 & H & Et5). rewrite R1 in E0. mgo E0.
  inversion L. subst p0 q0. clear L. cbv iota beta in H. sbeq H.
  apply bind_inv in H. destruct H as (st1 & s2 & t6 & t7 & E0 & H & Et7).
  pose proof (pubhdr_first _ _ _ _ Eh) as Hfst.
  destruct (publishFlags_publish (with_qos p Q0)) as (P1 & P2 & P3).
  rewrite <- Hfst in P1, P2, P3. cbn [with_qos p_dup] in P3.
  apply (sendPublish_first (with_qos p Q1) _ _ _ _ _ _ _ P1 P2 P3) in E0.
  (* the vectors *)
  assert (Hvec : exists vs, pub_vectors (with_qos p Q1) h hs id = Ok vs /\ concat vs = publish_packet (as_qos0 m)).
  { pose proof Hm as (M1 & M2 & M3 & M4 & M5 & M6 & M7 & M8). cbn [with_qos p_qos p_retain p_dup p_topic p_topiclen p_payload p_paylen] in *.
    pose proof (publish_limit_le m) as Hmax. rewrite Z.leb_le in Hmax. specialize (Hmax Hlim).
    set (p0 := mkPub Q0 (p_retain p) (p_dup p) (p_topic p) (p_topiclen p) (Some (be16 (pm_id m) ++ pm_payload m)) (2 + zlen (pm_payload m))).
    assert (Hm0 : pub_means p0 0 (as_qos0 m)).
    { unfold pub_means, p0, as_qos0. cbn [p_qos p_retain p_dup p_topic p_topiclen p_payload p_paylen pm_qos pm_retain pm_dup pm_topic pm_id pm_payload].
      repeat (split; auto); try lia. left. eexists. split; [reflexivity|]. rewrite SerProofs.zlen_app. change (zlen (be16 (pm_id m))) with 2. pose proof (zlen_nonneg (pm_payload m)).
      split; [lia|]. rewrite firstn_all2; [reflexivity|]. rewrite app_length. cbn [be16 length]. unfold zlen. lia. }
    assert (Hb : zlen (publish_body (as_qos0 m)) = zlen (publish_body m)).
    { unfold publish_body, publish_head. rewrite <- M1. cbn [as_qos0 pm_topic pm_qos pm_payload]. rewrite !SerProofs.zlen_app. change (zlen (@nil Z)) with 0. lia. }
    pose proof (encsize_bounds (zlen (publish_body (as_qos0 m)))) as HeB. pose proof (zlen_pub_hdr (as_qos0 m)) as Hz.
    change (serializePublishHeaderWithoutTopic (with_qos p Q0)) with (serializePublishHeaderWithoutTopic p0) in Eh. rewrite <- Hb in Eh, Hmax.
    rewrite (publish_wo_topic p0 0 (as_qos0 m) _ Hm0 Hmax) in Eh by (fold (pub_hdr (as_qos0 m)); change (zlen (repeat 0 7)) with 7; lia).
    fold (pub_hdr (as_qos0 m)) in Eh.
    assert (K : h = pub_hdr (as_qos0 m) ++ skipn (length (pub_hdr (as_qos0 m))) (repeat 0 7) /\ hs = zlen (pub_hdr (as_qos0 m))) by (split; congruence).
    destruct K as (Hh & ->). destruct (pub_vectors_ok p0 0 (as_qos0 m) h _ Hm0 Hh) as (vs & V1 & V2).
    unfold pub_vectors in *. destruct (block (Some h) (zlen (pub_hdr (as_qos0 m)))) as [bh|]; [|discriminate]. cbn [rbind] in *.
    cbn [p0 with_qos p_topic p_topiclen p_payload p_paylen p_qos] in *. destruct (block (p_topic p) (p_topiclen p)) as [bt|]; [|discriminate]. cbn [rbind] in *.
    unfold block in V1. rewrite SerProofs.zlen_app in V1. change (zlen (be16 (pm_id m))) with 2 in V1. pose proof (zlen_nonneg (pm_payload m)) as Hpn.
    replace (0 <? 2 + zlen (pm_payload m)) with true in V1 by lia. rewrite Z.leb_refl in V1. cbn [rbind app] in V1.
    rewrite firstn_all2 in V1 by (rewrite app_length; cbn [be16 length]; unfold zlen; lia). inversion V1; subst vs. clear V1.
    cbn [concat] in V2. rewrite app_nil_r in V2.
    assert (Ey : exists y, (if 0 <? p_paylen p then let! y := block (p_payload p) (p_paylen p) in Ok [y] else Ok []) = Ok y /\ concat y = pm_payload m).
    { pose proof (holds0_len _ _ _ M8) as HpL. destruct (0 <? p_paylen p) eqn:E.
      - rewrite (block_holds0 _ _ _ M8) by lia. cbn [rbind]. eexists; split; [reflexivity|]. cbn. apply app_nil_r.
      - eexists; split; [reflexivity|]. cbn. destruct (pm_payload m) as [|? l]; auto.
        rewrite zlen_cons in *. pose proof (zlen_nonneg l). lia. }
    destruct Ey as (y & -> & Ey). cbn [rbind]. eexists; split; [reflexivity|]. rewrite <- V2. cbn [app concat]. rewrite Ey.
    unfold be16. rewrite hi8_eq, lo8_eq by lia. rewrite M4. reflexivity. }
  destruct Hvec as (vs & Hv1 & Hv2). destruct E0 as (ok & e & te & Hte & E0).
  destruct E0 as [(-> & -> & -> & ->)|(-> & vs' & sok & t8 & K1 & K2 & -> & ->)].
  - sbeq H. mgo H. inversion Er; subst. split; auto. split; auto. split; auto. right. split; auto. exists 0%nat. split; [cbn; lia|].
    cbn [app]. rewrite ?app_nil_r, ?outs_app, ?Hte. reflexivity.
  - assert (vs' = vs) by congruence. subst vs'. rewrite Hv2 in K2. destruct sok; cbn [sendst] in H; sbeq H.
    + rewrite (bad_published z1 id q) in H by (auto; lia). mgo H. inversion L; subst. inversion Er; subst. split; auto. split; auto. split; auto. left. split; auto.
      cbn [app]. rewrite ?app_nil_r, ?outs_app, Hte, (sentb_true _ _ _ _ K2). reflexivity.
    + mgo H. inversion Er; subst. split; auto. split; auto. split; auto. right. split; auto.
      destruct K2 as (k & l & Q1' & Q2' & _ & _ & _ & Q6 & _). exists k. split.
      * destruct (Nat.eq_dec k (length (publish_packet (as_qos0 m)))) as [E|E]; [apply Q6 in E; discriminate|lia].
      * cbn [app]. rewrite ?app_nil_r, ?outs_app, Hte, Q2'. reflexivity.
Qed.
End Invalid.
