(** The callback is called only on a connection, when the loops are (C54). *)
From Verif Require Import Base StateModel StateSpec StateHarness StateProofs StateProofs2 SerModel WireSpec SerHarness SerProofs SerProofs2 SerProofs3 SerProofs4
  CoreModel CoreHarness CoreSpec CoreProofs CoreProofs2 CoreProofs3 CoreProofs4 CoreProofs5 CoreProofs6 CoreProofs7 CoreProofs8 CoreProofs9 CoreProofs10 CoreProofs11 CoreProofs12 CoreProofs13
  CoreProofs14 CoreProofs16 CoreProofs21 CoreProofs22 FreshProofs.

Section Up.
Variable G : cfg.
(** the loops are called only while connected *)
Fixpoint loops_up (l : list call) (s : st) : Prop :=
  match l with
  | [] => True
  | c :: l => (is_loop c = true -> x_status (s_ctx s) = Connected) /\
              match run_call G c s with Ret _ s' _ => loops_up l s' | _ => True end
  end.

Definition down (s : st) : Prop := x_status (s_ctx s) <> Connected.
Lemma sentb_down bs s ok s' t : sentb bs s ok s' t -> down s -> down s'.
Proof.
  unfold down. intros (k & l & _ & _ & _ & _ & _ & _ & [(_ & ->)|(_ & _ & ->)]); [auto|]. rewrite broke_status. cbn [set_lastTx x_status]. destruct (x_status (s_ctx s)); congruence.
Qed.
Lemma atom_down d s s' t : atom d s s' t -> down s -> down s'.
Proof.
  intros A H. destruct A as [s s' t (E1 & E2 & E3 & E4 & E5) (F1 & F2 & F3) Hs|s o r c H1 H2|s bs ok s' t H1 H2|s ty data id pub result|s ok s' t -> Hn K]; try exact H.
  - unfold down in *. congruence.
  - contradiction.
  - eapply sentb_down; eauto. unfold down. cbn. discriminate.
Qed.
Lemma path_down d s s' t : Path d s s' t -> down s -> down s'.
Proof. induction 1; auto. intro. apply IHPath. eapply atom_down; eauto. Qed.
Lemma connect_down n m ci will tmo s st sp s' t : rx_all G s -> Reach n m (x_recs (s_ctx s)) -> down s -> connect G ci will tmo s = Ret (st, sp) s' t -> st = Success \/ down s'.
Proof.
  intros Hr Hc Hd H. eapply connect_spec in H; eauto; [|apply Hr].
  destruct H as [(_ & _ & _ & -> & _)|(rl & total & _ & H)].
  { right. unfold down in *. cbn [s_ctx]. rewrite broke_status. destruct (x_status (s_ctx s)); congruence. }
  destruct H as [[(_ & _ & _ & -> & _)|(_ & _ & _ & -> & _)]|(Hs & H)]; [now right|now right|].
  destruct H as [(_ & _ & -> & _)|(vs & ok & s1 & t1 & Hv & H1 & H)]; [now right|]. pose proof (sentb_down _ _ _ _ _ H1 Hd) as D1.
  destruct H as [(_ & _ & _ & -> & _)|(_ & st2 & s2 & t2 & Hw & H)]; [now right|].
  destruct Hw as (bs & b & _ & _ & _ & _ & _ & _ & Ec2 & Hw). assert (D2 : down s2) by (unfold down in *; rewrite Ec2; exact D1).
  destruct H as [(_ & _ & -> & _)|[(_ & _ & -> & _ & _)|(_ & Esp & _ & s3 & t3 & H3 & _ & ->)]]; [now right|now left|].
  destruct (status_beq st Success) eqn:E; [left; destruct st; discriminate || reflexivity|].
  right. unfold down. cbn [s_ctx]. rewrite broke_status. destruct (x_status (s_ctx s3)); discriminate.
Qed.
Lemma unseen_callbacks t : forallb unseen t = true -> callbacks t = [].
Proof. induction t as [|e t IH]; cbn; auto. intro H. apply andb_true_iff in H. destruct H as (H1 & H2). destruct e; try discriminate; auto. Qed.
Lemma call_down n m c s st s' t : rx_all G s -> Reach n m (x_recs (s_ctx s)) -> down s -> is_loop c = false -> run_call G c s = Ret st s' t ->
  callbacks t = [] /\ (call_conn c = true /\ st = Success \/ down s').
Proof.
  intros Hr Hc Hd Hl H. destruct c as [o|ci will tmo| |]; try discriminate; cbn [run_call] in H.
  - split; [apply unseen_callbacks; apply run_op_frame in H; now apply op_unseen, H|]. right.
    eapply path_down; [|exact Hd]. exact (run_op_path G true o s (fun _ => eq_refl) _ _ _ H).
  - apply bind_inv in H. destruct H as ((st1, sp) & s1 & t1 & t2 & H & H2 & ->). apply ret_inv in H2. destruct H2 as (-> & -> & ->). rewrite app_nil_r in *.
    split; [exact (unseen_callbacks _ (h_connect G _ _ _ _ _ _ _ H))|]. destruct (connect_down _ _ _ _ _ _ _ _ _ _ Hr Hc Hd H); auto.
Qed.
Lemma calls_down n m l : forall s rs s' t, Begun G n m s -> down s -> loops_up l s -> run_calls G l s = Ret rs s' t ->
  (forall c r, In (c, r) (combine l rs) -> call_conn c = true -> r <> Success) -> callbacks t = [] /\ down s'.
Proof.
  induction l as [|c l IH]; intros s rs s' t HB Hd Hl H Hn; cbn [run_calls] in H; [mgo H; auto|].
  apply bind_inv in H. destruct H as (x & s1 & t1 & t2 & H1 & H & ->). apply bind_inv in H. destruct H as (xs & s2 & t3 & t4 & H2 & H & ->). apply ret_inv in H. destruct H as (-> & -> & ->).
  cbn [loops_up] in Hl. rewrite H1 in Hl. destruct Hl as (Hl1 & Hl). rewrite app_nil_r, callbacks_app.
  destruct (begun_inv G n m s HB) as (R1 & R2 & _).
  assert (El : is_loop c = false) by (destruct (is_loop c); auto; now specialize (Hl1 eq_refl)).
  destruct (call_down _ _ _ _ _ _ _ R1 R2 Hd El H1) as (-> & [(K1 & ->)|D1]); [exfalso; eapply (Hn c Success); [now left|auto..]|].
  apply (IH _ _ _ _ (begun_call G _ _ _ _ _ _ _ HB H1) D1 Hl H2). intros c' r Hi. apply Hn. now right.
Qed.
End Up.
