(** One thread: when stored copies are fetched and cleared. *)
From Verif Require Import Base StateModel StateSpec StateHarness StateProofs StateProofs2 SerModel WireSpec SerHarness CoreModel CoreHarness CoreProofs CoreProofs2 CoreProofs3 CoreProofs7 CoreProofs9 CoreProofs10 CoreProofs11 CoreProofs12 CoreProofs15 CoreProofs16 CoreProofs21 CoreFinal
  Machine MachSpec OutSpec.

(** ** Events of a computation *)
Definition emits (P : ev -> bool) {A} (m : Mo A) : Prop := forall s a s' t, m s = Ret a s' t -> forallb P t = true.
Section Emits.
Variable P : ev -> bool.
Lemma em_bind {A B} (m : Mo A) (k : A -> Mo B) : emits P m -> (forall a, emits P (k a)) -> emits P (bind m k).
Proof. intros H1 H2 s b s' t H. apply bind_inv in H. destruct H as (a & s1 & t1 & t2 & E1 & E2 & ->). rewrite forallb_app. apply andb_true_iff. split; [eapply H1|eapply H2]; eauto. Qed.
Lemma em_ret {A} (a : A) : emits P (ret a).
Proof. intros s b s' t H. apply ret_inv in H. destruct H as (_ & _ & ->). reflexivity. Qed.
Lemma em_lift {A} (r : R A) : emits P (lift r).
Proof. intros s b s' t H. unfold lift in H. destruct r; [|discriminate]. replace t with (@nil ev) by congruence. reflexivity. Qed.
Lemma em_getc : emits P getc.
Proof. intros s b s' t H. apply getc_inv in H. destruct H as (_ & _ & ->). reflexivity. Qed.
Lemma em_gete : emits P gete.
Proof. intros s b s' t H. unfold gete in H. replace t with (@nil ev) by congruence. reflexivity. Qed.
Lemma em_modc f : emits P (modc f).
Proof. intros s b s' t H. unfold modc in H. replace t with (@nil ev) by congruence. reflexivity. Qed.
Lemma em_massert b : emits P (massert b).
Proof. unfold massert. destruct b; [apply em_ret|discriminate]. Qed.
Lemma em_undef {A} : emits P (@undef A). Proof. discriminate. Qed.
Lemma em_stuck {A} : emits P (@stuck A). Proof. discriminate. Qed.
Lemma em_on_recs {A} (f : recs -> R (A * recs)) : emits P (on_recs f).
Proof. intros s b s' t H. unfold on_recs in H. destruct (f _) as [[a r]|]; [|discriminate]. replace t with (@nil ev) by congruence. reflexivity. Qed.
Lemma em_getTime : emits P getTime.
Proof. intros s b s' t H. unfold getTime in H. destruct (e_times _); [discriminate|]. replace t with (@nil ev) by congruence. reflexivity. Qed.
Lemma em_emit e : P e = true -> emits P (emit e).
Proof. intros K s b s' t H. unfold emit in H. replace t with [e] by congruence. cbn. now rewrite K. Qed.
Hypothesis Ps : forall e, (match e with EOut _ | EOutErr => true | _ => false end) = true -> P e = true.
Hypothesis Pr : forall e, (match e with EIn _ | EInErr => true | _ => false end) = true -> P e = true.
Lemma em_tsend b : emits P (tsend b).
Proof. intros s a s' t H. unfold tsend in H. destruct (e_sends _); [discriminate|]. destruct (_ <? _); [replace t with [EOutErr] by congruence|match type of H with Ret _ _ ?x = _ => replace t with x by congruence end]; cbn; rewrite Ps; auto. Qed.
Lemma em_trecv n : emits P (trecv n).
Proof. intros s a s' t H. unfold trecv in H. destruct (e_recvs _); [discriminate|]. destruct (_ <? _); [replace t with [EInErr] by congruence|match type of H with Ret _ _ ?x = _ => replace t with x by congruence end]; cbn; rewrite Pr; auto. Qed.
End Emits.
Ltac em1 := lazymatch goal with
  | |- emits _ (bind _ _) => apply em_bind; [|intro]
  | |- emits _ (ret _) => apply em_ret
  | |- emits _ (lift _) => apply em_lift
  | |- emits _ getc => apply em_getc
  | |- emits _ gete => apply em_gete
  | |- emits _ (modc _) => apply em_modc
  | |- emits _ (massert _) => apply em_massert
  | |- emits _ undef => apply em_undef
  | |- emits _ stuck => apply em_stuck
  | |- emits _ (on_recs _) => apply em_on_recs
  | |- emits _ getTime => apply em_getTime
  | |- emits _ (tsend _) => apply em_tsend; auto
  | |- emits _ (trecv _) => apply em_trecv; auto
  | |- emits _ (emit _) => apply em_emit
  | |- emits _ (match ?x with _ => _ end) => destruct x
  | |- emits _ (let '(_, _) := ?x in _) => destruct x
  end.
Ltac em := repeat (first [em1 | progress cbv beta iota zeta]).

Section Core.
Variable G : cfg.
Variable P : ev -> bool.
Hypothesis Ps : forall e, (match e with EOut _ | EOutErr => true | _ => false end) = true -> P e = true.
Hypothesis Pr : forall e, (match e with EIn _ | EInErr => true | _ => false end) = true -> P e = true.
Lemma em_sendb fuel : forall rest b st0 sent, emits P (sendb_loop G fuel rest b st0 sent).
Proof. induction fuel as [|fuel IH]; intros; cbn [sendb_loop]; em; apply IH. Qed.
Lemma em_sendBuffer bs : emits P (sendBuffer G bs).
Proof. unfold sendBuffer. em. apply em_sendb. Qed.
Lemma em_sendv fuel : forall vs b st0 sent, emits P (sendv_loop G fuel vs b st0 sent).
Proof. induction fuel as [|fuel IH]; intros; cbn [sendv_loop]; em; apply IH. Qed.
Lemma em_recv_into off k : emits P (recv_into off k).
Proof. unfold recv_into. em. Qed.
Lemma em_recvExact_loop fuel : forall a b c d, emits P (recvExact_loop G fuel a b c d).
Proof. induction fuel as [|fuel IH]; intros; cbn [recvExact_loop]; em; try apply IH; apply em_recv_into. Qed.
Lemma em_recvExact k : emits P (recvExact G k).
Proof. unfold recvExact. em. apply em_recvExact_loop. Qed.
Lemma em_discardStored_loop fuel : forall a b c, emits P (discardStored_loop G fuel a b c).
Proof. induction fuel as [|fuel IH]; intros; cbn [discardStored_loop]; em; try apply IH; apply em_recvExact. Qed.
Hypothesis Pd : forall ty rl, P (EDrop ty rl) = true.
Lemma em_discardStored ty rem hdr : emits P (discardStoredPacket G ty rem hdr).
Proof. unfold discardStoredPacket. em; auto. apply em_discardStored_loop. Qed.
Lemma em_acks id st0 : emits P (sendPublishAcks G id st0).
Proof. unfold sendPublishAcks. em; auto; apply em_sendBuffer. Qed.
Lemma em_sendPacketPing : emits P (ping G).
Proof. unfold ping. em; auto; apply em_sendBuffer. Qed.
Lemma em_keep : emits P (handleKeepAlive G).
Proof. unfold handleKeepAlive. em; apply em_sendPacketPing. Qed.
(** one API call of the application *)
Hypothesis Po : forall o, emits P (run_op G o).
Lemma em_ops l : emits P (run_ops G l).
Proof. induction l as [|o l IH]; cbn [run_ops]; em; auto. Qed.
Hypothesis Pc : forall ty data id pub r, P (ECb ty data id pub r) = true.
Lemma em_callback ty data id pub r : emits P (callback G ty data id pub r).
Proof. unfold callback. em; auto; [|apply em_ops]. intros ? ? ? t H. replace t with (@nil ev) by congruence. reflexivity. Qed.
Lemma em_inpub ty rem data : emits P (handleIncomingPublish G ty rem data).
Proof. unfold handleIncomingPublish. em; try apply em_acks; apply em_callback. Qed.
Lemma em_shift total : emits P (shift_buffer G total).
Proof. unfold shift_buffer. em. Qed.
End Core.

(** ** Copies are cleared right after reading *)
Definition steady (e : ev) : bool := match e with EClear _ | ERetrieve _ _ => false | _ => true end.
Definition settled (t : list ev) : Prop := forall t1 id t2, t = t1 ++ EClear id :: t2 -> since reading (fun e => ~ stores id e) t1.
Definition Fresh (t : list ev) : Prop := settled t /\ undisturbed t.
Lemma since_in {T} (X Y : T -> Prop) a l : since X Y l -> since X Y (a ++ l).
Proof. intros (b & x & c & -> & H). exists (a ++ b), x, c. rewrite <- app_assoc. auto. Qed.
Lemma split_app {T} (a b t1 : list T) x t2 : a ++ b = t1 ++ x :: t2 -> (exists u, a = t1 ++ x :: u /\ t2 = u ++ b) \/ (exists u, b = u ++ x :: t2 /\ t1 = a ++ u).
Proof.
  revert t1. induction a as [|y a IH]; intros t1 H; [right; exists t1; auto|]. destruct t1 as [|z t1].
  - left. exists a. cbn [app] in *. split; congruence.
  - cbn in H. assert (y = z) by congruence. assert (E : a ++ b = t1 ++ x :: t2) by congruence. subst z.
    destruct (IH _ E) as [(u & -> & ->)|(u & -> & ->)]; [left|right]; exists u; auto.
Qed.
Lemma fresh_app a b : Fresh a -> Fresh b -> Fresh (a ++ b).
Proof.
  intros (A1 & A2) (B1 & B2). split.
  - intros t1 id t2 E. destruct (split_app _ _ _ _ _ E) as [(u & Ea & _)|(u & Eb & ->)]; [eauto|]. apply since_in. eauto.
  - intros t1 id r t2 E. destruct (split_app _ _ _ _ _ E) as [(u & Ea & _)|(u & Eb & ->)]; [eauto|]. apply since_in. eauto.
Qed.
Lemma steady_no t e t1 t2 : forallb steady t = true -> t = t1 ++ e :: t2 -> steady e = true.
Proof. intros H ->. rewrite forallb_app in H. apply andb_true_iff in H. destruct H as (_ & H). cbn in H. apply andb_true_iff in H. apply H. Qed.
Lemma steady_fresh t : forallb steady t = true -> Fresh t.
Proof. intro H. split; [intros t1 id t2 E|intros t1 id r t2 E]; pose proof (steady_no _ _ _ _ H E); discriminate. Qed.
Lemma fresh_tidy t : settled t -> tidy t.
Proof.
  intros H a ty id b c -> Hb. destruct (H (a ++ EPkt ty (be16 id) :: b) id c) as (l1 & x & l2 & E & Hx & Hf); [now rewrite <- app_assoc|].
  destruct (split_app _ _ _ _ _ E) as [(u & -> & ->)|([|y u] & Eb & ->)].
  - rewrite Forall_app in Hf. destruct Hf as (_ & Hf). inversion Hf as [|? ? _ Hf']; subst. intro X. apply Exists_exists in X. destruct X as (e & He & Hs). rewrite Forall_forall in Hf'. now apply (Hf' e).
  - assert (b = l2) by (cbn in Eb; congruence). subst l2. intro X. apply Exists_exists in X. destruct X as (e & He & Hs). rewrite Forall_forall in Hf. now apply (Hf e).
  - exfalso. assert (b = u ++ x :: l2) by (cbn in Eb; congruence). subst b. rewrite Forall_app in Hb. destruct Hb as (_ & Hb). inversion Hb; subst. auto.
Qed.

Section Calls.
Variable G : cfg.
Notation E := (emits steady).
Lemma steady_ops e : op_ev e = true -> steady e = true. Proof. destruct e; auto; discriminate. Qed.
Lemma em_run_op o : E (run_op G o).
Proof. intros s a s' t H. apply run_op_frame in H. destruct H as (_ & H). rewrite forallb_forall in *. intros x Hx. apply steady_ops; auto. Qed.
Lemma St : forall e, (match e with EOut _ | EOutErr => true | _ => false end) = true -> steady e = true. Proof. destruct e; auto; discriminate. Qed.
Lemma Rt : forall e, (match e with EIn _ | EInErr => true | _ => false end) = true -> steady e = true. Proof. destruct e; auto; discriminate. Qed.
(** a copy is cleared at the start or not at all *)
Definition leads {A} (m : Mo A) : Prop := forall s a s' t, m s = Ret a s' t -> exists u v, t = u ++ v /\ forallb steady v = true /\ (u = [] \/ exists id, u = [EClear id]).
Lemma leads_em {A} (m : Mo A) : E m -> leads m.
Proof. intros H s a s' t K. exists [], t. split; auto. split; [eapply H; eauto|auto]. Qed.
Lemma leads_bind {A B} (m : Mo A) (k : A -> Mo B) : leads m -> (forall a, E (k a)) -> leads (bind m k).
Proof.
  intros H1 H2 s b s' t H. apply bind_inv in H. destruct H as (a & s1 & t1 & t2 & X1 & X2 & ->). destruct (H1 _ _ _ _ X1) as (u & v & -> & Hv & Hu).
  exists u, (v ++ t2). rewrite <- app_assoc. split; auto. split; auto. rewrite forallb_app, Hv. cbn. eapply H2; eauto.
Qed.
Definition mute {A} (m : Mo A) : Prop := forall s a s' t, m s = Ret a s' t -> t = [].
Lemma leads_mute {A B} (m : Mo A) (k : A -> Mo B) : mute m -> (forall a, leads (k a)) -> leads (bind m k).
Proof. intros H1 H2 s b s' t H. apply bind_inv in H. destruct H as (a & s1 & t1 & t2 & X1 & X2 & ->). apply H1 in X1. subst t1. eapply H2; eauto. Qed.
Lemma mute_lift {A} (r : R A) : mute (lift r). Proof. intros s a s' t H. apply lift_inv in H. apply H. Qed.
Lemma mute_getc : mute getc. Proof. intros s a s' t H. apply getc_inv in H. apply H. Qed.
Lemma mute_ret {A} (a : A) : mute (ret a). Proof. intros s b s' t H. apply ret_inv in H. apply H. Qed.
Lemma mute_on_recs {A} (f : recs -> R (A * recs)) : mute (on_recs f).
Proof. intros s a s' t H. unfold on_recs in H. destruct (f _) as [[b r]|]; [|discriminate]. congruence. Qed.
Lemma leads_clear id : leads (clear_publish id).
Proof. intros s a s' t H. apply emit_inv in H. destruct H as (_ & ->). exists [EClear id], []. eauto. Qed.
Lemma e_callback ty data id pub r : E (callback G ty data id pub r).
Proof. apply em_callback; auto using em_run_op. Qed.
Lemma leads_pubacks ty rem data : leads (handlePublishAcks G ty rem data).
Proof.
  unfold handlePublishAcks. apply leads_mute; [apply mute_lift|]. intro k. apply leads_mute; [apply mute_lift|]. intros ((st0 & pid) & b). cbv beta iota zeta.
  apply leads_mute; [destruct (status_beq _ _); [apply mute_on_recs|apply mute_ret]|]. intros (st1 & ns). apply leads_mute; [apply mute_getc|]. intro c.
  apply leads_bind; [destruct (_ && _); [apply leads_clear|apply leads_em; em]|]. intros _. em; [apply e_callback|apply em_acks; auto using St].
Qed.
Lemma leads_ack ty rem data mk : leads (handleIncomingAck G ty rem data mk).
Proof.
  unfold handleIncomingAck. destruct (_ || _ || _ || _); [apply leads_pubacks|]. apply leads_em. em; apply e_callback.
Qed.
Lemma pkt_fresh ty body u v : (u = [] \/ exists id, u = [EClear id]) -> forallb steady v = true -> Fresh (EPkt ty body :: u ++ v).
Proof.
  intros [->|(i & ->)] Hv; [apply steady_fresh; exact Hv|]. change (EPkt ty body :: [EClear i] ++ v) with ([EPkt ty body; EClear i] ++ v). apply fresh_app; [|now apply steady_fresh].
  split.
  - intros t1 id t2 K. destruct t1 as [|x [|y [|z t1]]]; cbn in K; try discriminate. assert (x = EPkt ty body) by congruence. subst x.
    exists [], (EPkt ty body), []. split; auto. split; [exact I|constructor].
  - intros t1 id r t2 K. destruct t1 as [|x [|y [|z t1]]]; cbn in K; discriminate.
Qed.
Definition fresh {A} (m : Mo A) : Prop := forall s a s' t, m s = Ret a s' t -> Fresh t.
Lemma fresh_em {A} (m : Mo A) : E m -> fresh m.
Proof. intros H s a s' t K. apply steady_fresh. eapply H; eauto. Qed.
Lemma fresh_bind {A B} (m : Mo A) (k : A -> Mo B) : fresh m -> (forall a, fresh (k a)) -> fresh (bind m k).
Proof. intros H1 H2 s b s' t H. apply bind_inv in H. destruct H as (a & s1 & t1 & t2 & X1 & X2 & ->). apply fresh_app; [eapply H1|eapply H2]; eauto. Qed.
Lemma fresh_pkt {A B} ty body (m : Mo A) (k : A -> Mo B) : leads m -> (forall a, E (k a)) -> fresh (emit (EPkt ty body) ;; bind m k).
Proof.
  intros H1 H2 s b s' t H. apply bind_inv in H. destruct H as (a & s1 & t1 & t2 & X1 & X2 & ->). apply emit_inv in X1. destruct X1 as (_ & ->).
  destruct (leads_bind m k H1 H2 _ _ _ _ X2) as (u & v & -> & Hv & Hu). cbn [app]. apply pkt_fresh; auto.
Qed.
Lemma fresh_iteration mk : fresh (receiveSingleIteration G mk).
Proof.
  unfold receiveSingleIteration. apply fresh_bind; [apply fresh_em; em|]. intro c. apply fresh_bind; [apply fresh_em; apply em_recv_into; apply Rt|]. intro r.
  apply fresh_bind; [apply fresh_em; em|]. intros (((st0 & ty) & rem) & hdr). cbv beta iota zeta.
  apply fresh_bind; [apply fresh_em; em; apply em_keep; apply St|]. intro st1. apply fresh_bind; [apply fresh_em; em|]. intro c1.
  apply fresh_bind; [apply fresh_em; em; apply em_discardStored; auto; [apply Rt]|]. intro st2.
  apply fresh_bind; [|intro; apply fresh_em; em]. destruct (status_beq _ _); [|apply fresh_em; em].
  apply fresh_bind; [apply fresh_em; em|]. intro c2. apply fresh_pkt; [|intro; em; apply em_shift].
  destruct (_ =? _); [apply leads_em; apply em_inpub; auto using St, em_run_op|apply leads_ack].
Qed.
(** *** Connecting *)
Definition resend_ev (e : ev) : bool := match e with EOut _ | EOutErr | ERetrieve _ _ => true | _ => false end.
Lemma em_retrieve id : emits resend_ev (retrieve_publish id).
Proof. intros s a s' t H. unfold retrieve_publish in H. match type of H with Ret _ _ ?x = _ => replace t with x by congruence end. reflexivity. Qed.
Lemma Sr : forall e, (match e with EOut _ | EOutErr => true | _ => false end) = true -> resend_ev e = true. Proof. destruct e; auto; discriminate. Qed.
Lemma em_publish_loop fuel : forall cur, emits resend_ev (publish_loop G fuel cur).
Proof. induction fuel as [|fuel IH]; intro cur; cbn [publish_loop]; em; auto; [apply em_retrieve|apply em_sendBuffer; apply Sr]. Qed.
Lemma em_pubrel_loop fuel : forall id cur, emits resend_ev (pubrel_loop G fuel id cur).
Proof. induction fuel as [|fuel IH]; intros id cur; cbn [pubrel_loop]; em; auto. apply em_acks. apply Sr. Qed.
Lemma em_resume : emits resend_ev (handleUncleanSessionResumption G).
Proof. unfold handleUncleanSessionResumption. em; auto using em_publish_loop, em_pubrel_loop. Qed.
Lemma retrieved_in id r t : In (ERetrieve id r) t -> In id (map fst (retrieved t)).
Proof. intro H. apply in_map_iff. exists (id, r). split; auto. unfold retrieved. apply in_flat_map. eexists. split; [exact H|]. now left. Qed.
Lemma read_since t2 : recv_only t2 -> ins t2 <> [] -> exists a bs b, t2 = a ++ EIn bs :: b /\ forallb is_recv b = true.
Proof.
  unfold recv_only. induction t2 as [|e t2 IH]; [now destruct 2|]. cbn [forallb]. rewrite andb_true_iff. intros (H1 & H2) Hn.
  destruct e as [| |l0| | | | | | | |]; try discriminate; [exists [], l0, t2; auto|]. destruct (IH H2 Hn) as (a & bs & b & -> & Hb). exists (EInErr :: a), bs, b. auto.
Qed.
Lemma recv_steady t : recv_only t -> forallb steady t = true.
Proof. unfold recv_only. rewrite !forallb_forall. intros H x Hx. apply H in Hx. destruct x; auto; discriminate. Qed.
Lemma send_steady t : send_only t -> forallb steady t = true.
Proof. unfold send_only. rewrite !forallb_forall. intros H x Hx. apply H in Hx. destruct x; auto; discriminate. Qed.
Lemma fresh_connect n m ci will tmo s st0 sp s' t : Begun G n m s -> connect G ci will tmo s = Ret (st0, sp) s' t -> Fresh t.
Proof.
  intros HB H. pose proof (begun_reach G _ _ _ HB) as HR. apply (connect_spec G n m) in H; [|exact HR|eapply begun_bytes; eauto].
  assert (F0 : Fresh []) by (now apply steady_fresh).
  destruct H as [(_ & _ & _ & _ & ->)|(rl & total & _ & [[(_ & _ & _ & _ & ->)|(_ & _ & _ & _ & ->)]|(Hn & [(_ & _ & _ & ->)|(vs & ok & s1 & t1 & _ & Hs & K)])])]; auto.
  pose proof (sentb_only _ _ _ _ _ Hs) as So. pose proof (send_steady _ So) as F1.
  destruct K as [(_ & _ & _ & _ & ->)|(_ & st2 & s2 & t2 & Hw & K)]; [now apply steady_fresh|].
  destruct Hw as (bs & b & Hi & Hro & _ & _ & _ & _ & Cx & Hw). pose proof (recv_steady _ Hro) as F2.
  destruct (sentb_nc _ _ _ _ _ Hn Hs) as (l1 & Ex1).
  destruct K as [(_ & _ & _ & ->)|[(-> & -> & _ & _ & ->)|(-> & -> & _ & s3 & t3 & Hr & -> & _)]].
  - apply steady_fresh. now rewrite forallb_app, F1.
  - apply fresh_app; [now apply steady_fresh|].
    destruct (read_since t2 Hro) as (a & x & b0 & -> & Hb).
    { rewrite Hi. destruct Hw as [(_ & p & -> & _)|[(? & _)|[?|[?|?]]]]; discriminate. }
    split.
    + intros u id v Eu. destruct (split_app _ _ _ _ _ Eu) as [(w & Ea & _)|(w & Eb & ->)].
      * pose proof (steady_no _ _ _ _ F2 Ea). discriminate.
      * exists a, (EIn x), (b0 ++ w). rewrite <- app_assoc. split; auto. split; [exact I|]. apply Forall_app. split.
        -- apply Forall_forall. intros e He (v0 & o & ->). rewrite forallb_forall in Hb. apply Hb in He. discriminate.
        -- destruct (x_retr _); [|destruct w; discriminate]. apply Forall_forall. intros e He (v0 & o & ->).
           assert (X : In (EStore id v0 o) (map EClear (pubq (tracked (outRecs (x_recs (s_ctx s))))))) by (rewrite Eb; apply in_or_app; auto).
           apply in_map_iff in X. destruct X as (? & ? & _). discriminate.
    + intros u id r v Eu. assert (X : In (ERetrieve id r) ((a ++ EIn x :: b0) ++ (if x_retr (s_ctx s) then map EClear (pubq (tracked (outRecs (x_recs (s_ctx s))))) else []))).
      { rewrite Eu. apply in_or_app. right. now left. }
      apply in_app_or in X. destruct X as [X|X].
      * rewrite forallb_forall in F2. apply F2 in X. discriminate.
      * destruct (x_retr _); [|destruct X]. apply in_map_iff in X. destruct X as (? & ? & _). discriminate.
  - apply fresh_app; [now apply steady_fresh|].
    destruct (read_since t2 Hro) as (a & x & b0 & -> & Hb).
    { rewrite Hi. destruct Hw as [(_ & p & -> & _)|[(? & _)|[?|[?|?]]]]; discriminate. }
    pose proof (em_resume _ _ _ _ Hr) as F3. rewrite forallb_forall in F3.
    assert (Nd : NoDup (map fst (retrieved t3))).
    { apply (resume_spec G n m) in Hr; [|cbn [s_ctx]; unfold connected; cbn [set_keep set_status x_recs]; rewrite Cx; cbn [set_buf x_recs]; rewrite Ex1; cbn [set_lastTx x_recs]; exact HR|reflexivity].
      cbv zeta in Hr. destruct Hr as (_ & _ & done & got & -> & Hr). rewrite map_app, map_map. cbn [fst].
      change (map (fun x => fst x) done) with (map fst done).
      assert (Nq : NoDup (pubq (tracked (outRecs (x_recs (connected (s_ctx s2) (c_keepalive ci))))))).
      { unfold connected; cbn [set_keep set_status x_recs]; rewrite Cx; cbn [set_buf x_recs]; rewrite Ex1; cbn [set_lastTx x_recs].
        destruct (ids_unique _ _ _ HR) as (Nd & _). unfold pubq, ids in *. clear - Nd. induction (tracked (outRecs (x_recs (s_ctx s)))) as [|f l IH]; [constructor|].
        cbn [map filter] in *. inversion Nd as [|? ? N1 N2]; subst. destruct (_ : bool); cbn [map]; auto. constructor; auto. intro X. apply N1. apply in_map_iff in X. destruct X as (g & <- & Hg). apply filter_In in Hg. apply in_map. apply Hg. }
      cbn [s_ctx] in Hr.
      destruct Hr as [(_ & -> & -> & _)|(_ & [(_ & _ & _ & -> & -> & _)|(_ & id & rest & Eq & K)])]; [constructor|rewrite app_nil_r; destruct (x_retr _); [exact Nq|constructor]|].
      assert (Eg : map fst got = [id]) by (destruct K as [(_ & -> & _)|(_ & bs0 & k & -> & _)]; reflexivity).
      rewrite Eg. rewrite Eq in Nq. change (id :: rest) with ([id] ++ rest) in Nq. rewrite app_assoc in Nq. clear - Nq. induction rest as [|y rest IH] using rev_ind; [now rewrite app_nil_r in Nq|].
      rewrite app_assoc in Nq. apply NoDup_remove_1 in Nq. rewrite app_nil_r in Nq. auto. }
    split.
    + intros u id v Eu. assert (X : In (EClear id) ((a ++ EIn x :: b0) ++ t3)) by (rewrite Eu; apply in_or_app; right; now left).
      apply in_app_or in X. destruct X as [X|X]; [rewrite forallb_forall in F2; apply F2 in X; discriminate|apply F3 in X; discriminate].
    + intros u id r v Eu. destruct (split_app _ _ _ _ _ Eu) as [(w & Ea & _)|(w & Eb & ->)].
      * pose proof (steady_no _ _ _ _ F2 Ea). discriminate.
      * exists a, (EIn x), (b0 ++ w). rewrite <- app_assoc. split; auto. split; [eauto|]. apply Forall_app. split.
        -- apply Forall_forall. intros e He. rewrite forallb_forall in Hb. apply Hb in He. split; [intros (v0 & o & ->); discriminate|intros r' ->; discriminate].
        -- apply Forall_forall. intros e He. split.
           ++ intros (v0 & o & ->). assert (X : In (EStore id v0 o) t3) by (rewrite Eb; apply in_or_app; auto). apply F3 in X. discriminate.
           ++ intros r' ->. rewrite Eb, retrieved_app, map_app in Nd. cbn [retrieved flat_map app map fst] in Nd. apply NoDup_remove_2 in Nd. apply Nd. apply in_or_app. left. eapply retrieved_in; eauto.
Qed.
Lemma fresh_call n m c s st0 s' t : Begun G n m s -> run_call G c s = Ret st0 s' t -> Fresh t.
Proof.
  intros HB H. destruct c; cbn [run_call] in H.
  - apply steady_fresh. eapply em_run_op; eauto.
  - apply bind_inv in H. destruct H as ((sa & sp) & s1 & t1 & t2 & H1 & H2 & ->). apply ret_inv in H2. destruct H2 as (_ & _ & ->). rewrite app_nil_r. eapply fresh_connect; eauto.
  - unfold processLoop in H. apply (fresh_bind (modc (fun c => set_ctl c false)) (fun _ => receiveSingleIteration G true)) in H; auto; [apply fresh_em; em|intro; apply fresh_iteration].
  - unfold receiveLoop in H. eapply fresh_iteration; eauto.
Qed.
Lemma fresh_calls n m l : forall s rs s' t, Begun G n m s -> run_calls G l s = Ret rs s' t -> Fresh t.
Proof.
  induction l as [|c l IH]; intros s rs s' t HB H; cbn [run_calls] in H.
  - apply ret_inv in H. destruct H as (_ & _ & ->). now apply steady_fresh.
  - apply bind_inv in H. destruct H as (x & s1 & t1 & t2 & H1 & H & ->). apply bind_inv in H. destruct H as (xs & s2 & t3 & t4 & H2 & H & ->). apply ret_inv in H. destruct H as (_ & _ & ->).
    rewrite app_nil_r. apply fresh_app; [eapply fresh_call; eauto|]. eapply IH; [|eauto]. eapply begun_call; eauto.
Qed.
Lemma opened_fresh n m l s rs s' t : opened G n m s -> run_calls G l s = Ret rs s' t -> tidy t /\ undisturbed t.
Proof.
  intros HO H. destruct (fresh_calls n m l s rs s' t) as (A & B); auto; [|split; auto using fresh_tidy].
  exists s, [], [], []. split; auto.
Qed.
End Calls.
