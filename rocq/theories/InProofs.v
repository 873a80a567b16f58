(** Publishes from the server, end to end: the phases of a message. *)
From Verif Require Import Base StateModel StateSpec StateHarness SerModel WireSpec SerHarness SerProofs4 CoreModel CoreHarness Machine MachSpec MachProofs MachFacts MachFacts2 NetProofs InSpec.

(** ** A publish is determined by its bytes *)
Lemma ok_means m : dpkt_ok (DPub m) -> publish_means (publish_first m) (publish_body m) m.
Proof.
  intros ((H1 & H2 & _) & Hq). pose proof (publish_first_range m). split; [lia|]. split; auto. split; auto. split; [apply H1|]. split; [intro C; congruence|]. intros _. now apply H2.
Qed.
Lemma be16_zero n : 0 <= n <= 65535 -> be16 n = [0; 0] -> n = 0.
Proof. unfold be16. intros H E. assert (n / 256 = 0) by congruence. assert (n mod 256 = 0) by congruence. lia. Qed.
Lemma means_same m m' : dpkt_ok (DPub m) -> publish_means (publish_first m) (publish_body m) m' -> m' = m.
Proof.
  intros H H'. pose proof (ok_means m H) as Hm. destruct H as (((Ht & Hl) & _) & _). unfold str_ok in Hl. symmetry. apply (publish_means_inj (publish_first m) (publish_body m)); auto.
  assert (D : pm_topic m' = [] \/ pm_topic m' <> []) by (destruct (pm_topic m'); auto; right; discriminate). destruct D as [D|D]; auto. exfalso.
  destruct H' as (_ & _ & Eb & _). unfold publish_body, publish_head, mstr in Eb. rewrite D in Eb. cbn [zlen length] in Eb. assert (E : be16 (zlen (pm_topic m)) = [0; 0]) by (unfold be16 in *; cbn [app] in *; change (zlen []) with 0 in Eb; cbn in Eb; congruence).
  apply be16_zero in E; [|unfold zlen in *; lia]. destruct (pm_topic m); [contradiction|]. unfold zlen in E. cbn [length] in E. lia.
Qed.
Lemma no_dup_as m : no_dup (as_dup m) = no_dup m.
Proof. reflexivity. Qed.
Lemma as_dup_ok m : dpkt_ok (DPub m) -> dpkt_ok (DPub (as_dup m)).
Proof. exact (fun H => H). Qed.

(** ** Lists *)
Lemma sub_length {T} (l l' : list T) : Sub l l' -> (length l <= length l')%nat.
Proof. induction 1; cbn; lia. Qed.
Lemma sub_forall {T} (P : T -> Prop) l l' : Sub l l' -> Forall P l' -> Forall P l.
Proof. rewrite !Forall_forall. intros H K x Hx. apply K. eapply sub_in; eauto. Qed.
Lemma sub_empty {T} (l : list T) : Sub l [] -> l = [].
Proof. inversion 1; auto. Qed.
Lemma sub_full {T} (l l' : list T) : Sub l l' -> l <> [] -> l' <> [].
Proof. intros H K ->. apply K. now apply sub_empty. Qed.
Lemma sub_filter {T} (f : T -> bool) l l' : Sub l l' -> Sub (filter f l) (filter f l').
Proof. induction 1; cbn; [constructor|..]; destruct (f x); auto; constructor; auto. Qed.

(** ** Phases of a message *)
(** [dn], [up]: what of it is on its way; [ow]: the acknowledgement the client owes; [D]: what the
    application was given or is about to be; [e]: the client's record *)
Definition rec_ok (q : qos) (f : flight) : Prop :=
  f_qos f = q /\ match q with Base.Q1 => f_st f = PubAckSend | _ => f_st f = PubRecSend \/ f_st f = PubRelPending end.
Definition rel_ok (f : flight) : Prop := f_qos f = Q2 /\ (f_st f = PubRecSend \/ f_st f = PubRelPending \/ f_st f = PubCompSend).
Definition Ph (id : Z) (fly : option (publish_msg * bool)) (due : bool) (log : list publish_msg) (D : list tok) (dn : list dpkt) (ow up : list acktype) (e : option flight) : Prop :=
  (length dn + length ow + length up <= if due then 0 else 1)%nat /\
  match fly with
  | None => dn = [] /\ ow = [] /\ up = [] /\ e = None /\ due = false /\ handed log D
  | Some (m, false) => exists ms xs p, log = ms ++ [m] /\ D = xs ++ p /\ handed ms xs /\ Forall (gives m) p /\ (pm_qos m = Q2 -> (length p <= 1)%nat) /\
      Forall (fun d => d = DPub m \/ d = DPub (as_dup m)) dn /\ Forall (eq (answer (pm_qos m))) ow /\ Forall (eq (answer (pm_qos m))) up /\
      (ow <> [] -> e <> None) /\ (up <> [] -> p <> [] /\ (pm_qos m = Base.Q1 -> e = None)) /\
      match e with None => pm_qos m = Q2 -> p = [] | Some f => p <> [] /\ rec_ok (pm_qos m) f end
  | Some (m, true) => pm_qos m = Q2 /\ handed log D /\ Forall (eq (DRel id)) dn /\ Forall (eq Pubcomp) ow /\ Forall (eq Pubcomp) up /\
      (ow <> [] -> exists f, e = Some f /\ f_st f = PubCompSend) /\ (up <> [] -> e = None) /\
      match e with None => True | Some f => rel_ok f end
  end.
Ltac nilp := match goal with |- _ <> [] -> _ => let C := fresh in intro C; exfalso; apply C; reflexivity end.
Lemma nil2 {T} (l : list T) n : (length l + n <= 0)%nat -> l = [].
Proof. destruct l; cbn; [auto|lia]. Qed.
Lemma Ph_sub id fly due log D dn ow up e dn' ow' up' : Sub dn' dn -> Sub ow' ow -> Sub up' up -> Ph id fly due log D dn ow up e -> Ph id fly due log D dn' ow' up' e.
Proof.
  intros H1 H2 H3 (Hl & H). pose proof (sub_length _ _ H1). pose proof (sub_length _ _ H2). pose proof (sub_length _ _ H3). split; [destruct due; lia|].
  destruct fly as [(m & [|])|].
  - destruct H as (A1 & A2 & A3 & A4 & A5 & A6 & A7 & A8). split; auto. split; auto. split; [eapply sub_forall; eauto|]. split; [eapply sub_forall; eauto|]. split; [eapply sub_forall; eauto|].
    split; [intro K; apply A6; eapply sub_full; eauto|]. split; [intro K; apply A7; eapply sub_full; eauto|auto].
  - destruct H as (ms & xs & p & A1 & A2 & A3 & A4 & A5 & A6 & A7 & A8 & A9 & A10 & A11). exists ms, xs, p. split; auto. split; auto. split; auto. split; auto. split; auto. split; [eapply sub_forall; eauto|]. split; [eapply sub_forall; eauto|]. split; [eapply sub_forall; eauto|].
    split; [intro K; apply A9; eapply sub_full; eauto|]. split; [intro K; apply A10; eapply sub_full; eauto|auto].
  - destruct H as (-> & -> & -> & A). split; [now apply sub_empty|]. split; [now apply sub_empty|]. split; [now apply sub_empty|]. auto.
Qed.

(** *** The server *)
Lemma Ph_puback id m due log D dn ow up e : pm_qos m = Base.Q1 -> Ph id (Some (m, false)) due log D dn ow (Puback :: up) e -> Ph id None due log D dn ow up e.
Proof.
  intros Hq (Hl & ms & xs & p & -> & -> & A3 & A4 & A5 & A6 & A7 & A8 & A9 & A10 & A11). destruct due; [cbn in Hl; lia|]. cbn [length] in Hl.
  assert (dn = []) by (apply (nil2 dn 0); lia). assert (ow = []) by (apply (nil2 ow 0); lia). assert (up = []) by (apply (nil2 up 0); lia). subst. destruct (A10 ltac:(discriminate)) as (B1 & B2). specialize (B2 Hq).
  split; [cbn; lia|]. split; auto. split; auto. split; auto. split; auto. split; auto. constructor; auto. intro C. congruence.
Qed.
Lemma Ph_pubrec id m due log D dn ow up e (y : bool) : pm_qos m = Q2 -> Ph id (Some (m, false)) due log D dn ow (Pubrec :: up) e ->
  Ph id (Some (m, true)) due log D (dn ++ if y then [DRel id] else []) ow up e.
Proof.
  intros Hq (Hl & ms & xs & p & -> & -> & A3 & A4 & A5 & A6 & A7 & A8 & A9 & A10 & A11). destruct due; [cbn in Hl; lia|]. cbn [length] in Hl.
  assert (dn = []) by (apply (nil2 dn 0); lia). assert (ow = []) by (apply (nil2 ow 0); lia). assert (up = []) by (apply (nil2 up 0); lia). subst. destruct (A10 ltac:(discriminate)) as (B1 & _).
  split; [destruct y; cbn; lia|]. split; auto. split; [constructor; auto; intros _; specialize (A5 Hq); destruct p as [|x [|y0 p]]; cbn in *; auto; [contradiction|lia]|].
  split; [destruct y; repeat constructor|]. split; [constructor|]. split; [constructor|]. split; [nilp|]. split; [nilp|]. destruct e as [f|]; auto. destruct A11 as (_ & A11 & A12). rewrite Hq in *. split; auto. tauto.
Qed.
Lemma Ph_pubcomp id m due log D dn ow up e : Ph id (Some (m, true)) due log D dn ow (Pubcomp :: up) e -> Ph id None due log D dn ow up e.
Proof.
  intros (Hl & A1 & A2 & A3 & A4 & A5 & A6 & A7 & A8). destruct due; [cbn in Hl; lia|]. cbn [length] in Hl.
  assert (dn = []) by (apply (nil2 dn 0); lia). assert (ow = []) by (apply (nil2 ow 0); lia). assert (up = []) by (apply (nil2 up 0); lia). subst. specialize (A7 ltac:(discriminate)).
  split; [cbn; lia|]. auto 9.
Qed.
Lemma Ph_new id m due log D dn ow up e (y : bool) : Ph id None due log D dn ow up e -> Ph id (Some (m, false)) due (log ++ [m]) D (dn ++ if y then [DPub m] else []) ow up e.
Proof.
  intros (Hl & -> & -> & -> & -> & -> & A6). split; [destruct y; cbn; lia|]. exists log, D, []. split; auto. split; [now rewrite app_nil_r|]. split; auto. split; [constructor|]. split; [cbn; lia|]. split; [destruct y; repeat constructor; auto|]. split; [constructor|]. split; [constructor|].
  split; [nilp|]. split; [nilp|]. auto.
Qed.
Lemma Ph_again id m rel log D dn ow up e : Ph id (Some (m, rel)) true log D dn ow up e -> Ph id (Some (m, rel)) false log D (dn ++ [if rel : bool then DRel id else DPub (as_dup m)]) ow up e.
Proof.
  intros (Hl & H). assert (dn = []) by (apply (nil2 dn 0); lia). assert (ow = []) by (apply (nil2 ow 0); lia). assert (up = []) by (apply (nil2 up 0); lia). subst. split; [cbn; lia|].
  destruct rel.
  - destruct H as (A1 & A2 & A3 & A4 & A5 & A6 & A7 & A8). split; auto. split; auto. split; [repeat constructor|]. auto 12.
  - destruct H as (ms & xs & p & A1 & A2 & A3 & A4 & A5 & A6 & A7 & A8 & A9 & A10 & A11). exists ms, xs, p. split; auto. split; auto. split; auto. split; auto. split; auto. split; [constructor; [right; reflexivity|constructor]|]. auto 12.
Qed.
Lemma Ph_due id fly due log D e : Ph id fly due log D [] [] [] e -> Ph id fly (match fly with None => false | _ => true end) log D [] [] [] e.
Proof. intros (Hl & H). split; [cbn; destruct fly; auto|]. destruct fly as [(m & [|])|]; auto. destruct H as (A1 & A2 & A3 & A4 & A5 & A6). auto 9. Qed.

(** *** The client *)
Lemma gives_show m m' d : m' = m \/ m' = as_dup m -> dpub_means (publish_body m') d (Some (pm_id m')) m' -> gives m (Did (ECb (publish_first m') (publish_body m') (pm_id m') (Some d) Success)).
Proof. intros E H. assert (Ei : pm_id m' = pm_id m) by (destruct E; subst; reflexivity). rewrite Ei in *. exists m', d. split; auto. split; auto. destruct E; subst; reflexivity. Qed.
Definition first_state (q : qos) : pstate := match q with Base.Q1 => PubAckSend | _ => PubRecSend end.
Lemma Ph_got id fly due log D m' d dn ow up : dpkt_ok (DPub m') -> pm_id m' = id -> dpub_means (publish_body m') d (Some (pm_id m')) m' -> Ph id fly due log D (DPub m' :: dn) ow up None ->
  Ph id fly due log (D ++ [Did (ECb (publish_first m') (publish_body m') (pm_id m') (Some d) Success)]) dn (answer (pm_qos m') :: ow) up (Some (F id (pm_qos m') (first_state (pm_qos m')))).
Proof.
  intros Ho Hi Hd (Hl & H). destruct due; [cbn in Hl; lia|]. cbn [length] in Hl. assert (dn = []) by (apply (nil2 dn 0); lia). assert (ow = []) by (apply (nil2 ow 0); lia). assert (up = []) by (apply (nil2 up 0); lia). subst dn ow up. split; [cbn; lia|].
  destruct fly as [(m & [|])|].
  - destruct H as (_ & _ & C & _). inversion C; discriminate.
  - destruct H as (ms & xs & p & A1 & A2 & A3 & A4 & A5 & A6 & A7 & A8 & A9 & A10 & A11). inversion A6 as [|? ? E _]; subst. assert (E' : m' = m \/ m' = as_dup m) by (destruct E; [left|right]; congruence).
    assert (Eq : pm_qos m' = pm_qos m) by (destruct E'; subst; reflexivity). rewrite Eq.
    exists ms, xs, (p ++ [Did (ECb (publish_first m') (publish_body m') (pm_id m') (Some d) Success)]). split; auto. split; [now rewrite app_assoc|]. split; auto. split; [apply Forall_app; split; auto; constructor; auto; now apply gives_show|].
    split; [intro K; rewrite (A11 K); cbn; lia|]. split; [constructor|]. split; [repeat constructor|]. split; [constructor|]. split; [intros _; discriminate|]. split; [nilp|]. split; [destruct p; discriminate|]. split; auto. destruct Ho as (_ & Ho). cbn. rewrite <- Eq. destruct (pm_qos m'); cbn; auto.
  - destruct H; discriminate.
Qed.
Lemma Ph_repeated id fly due log D m' dn ow up f : Ph id fly due log D (DPub m' :: dn) ow up (Some f) -> Ph id fly due log D dn (answer (pm_qos m') :: ow) up (Some f).
Proof.
  intros (Hl & H). destruct due; [cbn in Hl; lia|]. cbn [length] in Hl. assert (dn = []) by (apply (nil2 dn 0); lia). assert (ow = []) by (apply (nil2 ow 0); lia). assert (up = []) by (apply (nil2 up 0); lia). subst dn ow up. split; [cbn; lia|].
  destruct fly as [(m & [|])|].
  - destruct H as (_ & _ & C & _). inversion C; discriminate.
  - destruct H as (ms & xs & p & A1 & A2 & A3 & A4 & A5 & A6 & A7 & A8 & A9 & A10 & A11). inversion A6 as [|? ? E _]; subst. assert (E' : m' = m \/ m' = as_dup m) by (destruct E; [left|right]; congruence).
    assert (Eq : pm_qos m' = pm_qos m) by (destruct E'; subst; reflexivity). rewrite Eq. exists ms, xs, p. split; auto. split; auto. split; auto. split; auto. split; auto. split; [constructor|]. split; [repeat constructor|]. split; [constructor|]. split; [intros _; discriminate|]. split; [nilp|]. auto.
  - destruct H; discriminate.
Qed.
Lemma Ph_released id fly due log D dn ow up f : f_qos f = Q2 -> Ph id fly due log D (DRel id :: dn) ow up (Some f) -> Ph id fly due log D dn (Pubcomp :: ow) up (Some (F id Q2 PubCompSend)).
Proof.
  intros Hf (Hl & H). destruct due; [cbn in Hl; lia|]. cbn [length] in Hl. assert (dn = []) by (apply (nil2 dn 0); lia). assert (ow = []) by (apply (nil2 ow 0); lia). assert (up = []) by (apply (nil2 up 0); lia). subst dn ow up. split; [cbn; lia|].
  destruct fly as [(m & [|])|].
  - destruct H as (A1 & A2 & A3 & A4 & A5 & A6 & A7 & A8). split; auto. split; auto. split; [constructor|]. split; [repeat constructor|]. split; [constructor|]. split; [intros _; eexists; split; reflexivity|]. split; [nilp|]. split; cbn; auto.
  - destruct H as (ms & xs & p & A1 & A2 & A3 & A4 & A5 & A6 & _). inversion A6 as [|? ? [E|E] _]; discriminate.
  - destruct H; discriminate.
Qed.
(** the acknowledgement is sent; [y]: it is on its way *)
Lemma Ph_send id fly due log D dn up e k (y : bool) : Ph id fly due log D dn [k] up e ->
  Ph id fly due log D dn [] (up ++ if y then [k] else []) (match k with Puback | Pubcomp => None | _ => e end) /\
  match k with Puback => exists f, e = Some f /\ f_qos f = Base.Q1 /\ f_st f = PubAckSend | Pubcomp => exists f, e = Some f /\ f_qos f = Q2 /\ f_st f = PubCompSend | _ => True end.
Proof.
  intros (Hl & H). destruct due; [cbn in Hl; lia|]. cbn [length] in Hl. assert (dn = []) by (apply (nil2 dn 0); lia). assert (up = []) by (apply (nil2 up 0); lia). subst dn up. unfold Ph.
  destruct fly as [(m & [|])|].
  - destruct H as (A1 & A2 & A3 & A4 & A5 & A6 & A7 & A8). inversion A4; subst. destruct (A6 ltac:(discriminate)) as (f & -> & Ef). destruct A8 as (A8 & _).
    split; [|exists f; auto]. split; [destruct y; cbn; lia|]. split; auto. split; auto. split; auto. split; auto. split; [destruct y; repeat constructor|]. split; [nilp|]. split; auto.
  - destruct H as (ms & xs & p & A1 & A2 & A3 & A4 & A5 & A6 & A7 & A8 & A9 & A10 & A11). specialize (A9 ltac:(discriminate)). destruct e as [f|]; [|contradiction]. destruct A11 as (B1 & B2 & B3). inversion A7 as [|? ? E _]; subst. clear A7.
    remember (pm_qos m) as q eqn:Eq. destruct q; cbn [answer] in *.
    + split; [|exact I]. split; [destruct y; cbn; lia|]. exists ms, xs, p.  split; auto. split; auto. split; auto. split; auto. split; auto. split; auto. split; [constructor|]. split; [destruct y; repeat constructor|]. split; [nilp|]. split; [intros _; split; [auto|discriminate]|]. split; auto. split; auto.
    + split; [|eauto]. split; [destruct y; cbn; lia|]. exists ms, xs, p.  split; auto. split; auto. split; auto. split; auto. split; auto. split; auto. split; [constructor|]. split; [destruct y; repeat constructor|]. split; [nilp|]. split; [intros _; split; auto|]. discriminate.
    + split; [|exact I]. split; [destruct y; cbn; lia|]. exists ms, xs, p.  split; auto. split; auto. split; auto. split; auto. split; auto. split; auto. split; [constructor|]. split; [destruct y; repeat constructor|]. split; [nilp|]. split; [intros _; split; [auto|discriminate]|]. split; auto. split; auto.
  - destruct H as (_ & C & _). discriminate.
Qed.
(** PUBREC was sent, which is recorded *)
Lemma Ph_noted id fly due log D dn ow up f : f_qos f = Q2 -> f_st f = PubRecSend -> Ph id fly due log D dn ow up (Some f) -> Ph id fly due log D dn ow up (Some (F id Q2 PubRelPending)).
Proof.
  intros Hq Hs (Hl & H). split; auto. destruct fly as [(m & [|])|].
  - destruct H as (A1 & A2 & A3 & A4 & A5 & A6 & A7 & A8). split; auto. split; auto. split; auto. split; auto. split; auto. split; [intro K; destruct (A6 K) as (f' & E & E2); congruence|]. split; [intro K; specialize (A7 K); discriminate|]. split; cbn; auto.
  - destruct H as (ms & xs & p & A1 & A2 & A3 & A4 & A5 & A6 & A7 & A8 & A9 & A10 & (B1 & B2 & B3)). rewrite Hq in B2. exists ms, xs, p. rewrite <- B2 in *. split; auto. split; auto. split; auto. split; auto. split; auto. split; auto. split; auto. split; auto.
    split; [discriminate|]. split; [intro K; destruct (A10 K); split; auto; discriminate|]. split; auto. split; cbn; auto.
  - destruct H as (_ & _ & _ & C & _). discriminate.
Qed.
