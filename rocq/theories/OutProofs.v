(** QoS 1 publishes end to end: phases. *)
From Verif Require Import Base StateModel StateSpec StateHarness SerModel WireSpec SerHarness SerProofs4 CoreModel CoreHarness Machine MachSpec MachProofs MachFacts MachFacts2 NetSpec NetProofs NetProofs2 NetProofs3 OutSpec.

(** ** Lists *)
(** what was sent on the last connection *)
Fixpoint cur (u : list cpkt) : list cpkt := match u with [] => [] | p :: u' => if existsb opens u' then cur u' else if opens p then u' else p :: u' end.
Lemma cur_none u : existsb opens u = false -> cur u = u.
Proof. destruct u as [|p u]; auto. cbn. rewrite orb_false_iff. intros (-> & ->). reflexivity. Qed.
Lemma cur_snoc u p : opens p = false -> cur (u ++ [p]) = cur u ++ [p].
Proof.
  intro H. induction u as [|q u IH]; cbn; [now rewrite H|]. rewrite existsb_app. cbn. rewrite H, !orb_false_r. destruct (existsb opens u); auto. destruct (opens q); auto.
Qed.
Lemma cur_new u p : opens p = true -> cur (u ++ [p]) = [].
Proof. intro H. induction u as [|q u IH]; cbn; [now rewrite H|]. rewrite existsb_app. cbn. now rewrite H, !orb_true_r. Qed.
Lemma cur_sub u : Sub (cur u) u.
Proof. induction u as [|p u IH]; cbn; [constructor|]. destruct (existsb opens u); [now apply sub_drop|]. destruct (opens p); [apply sub_drop, sub_refl|apply sub_refl]. Qed.
Lemma cur_tail p u : existsb opens u = true -> cur (p :: u) = cur u.
Proof. intro H. cbn. now rewrite H. Qed.
Lemma sub_trans {T} (a b c : list T) : Sub a b -> Sub b c -> Sub a c.
Proof.
  intros H1 H2. revert a H1. induction H2 as [|x l l' H2 IH|x l l' H2 IH]; intros a H1; auto.
  - inversion H1; subst; [apply sub_keep; auto|apply sub_drop; auto].
  - apply sub_drop. auto.
Qed.
Lemma cur_lose u1 p u2 : (opens p = true -> existsb opens u2 = true) -> Sub (cur (u1 ++ u2)) (cur (u1 ++ p :: u2)).
Proof.
  intro H. induction u1 as [|q u1 IH]; cbn [app].
  - cbn [cur]. destruct (existsb opens u2) eqn:E; [apply sub_refl|]. rewrite cur_none by auto. destruct (opens p); [discriminate (H eq_refl)|apply sub_drop, sub_refl].
  - cbn [cur]. rewrite !existsb_app. cbn [existsb]. destruct (existsb opens u1); cbn [orb]; [exact IH|]. destruct (existsb opens u2) eqn:E2; [rewrite orb_true_r; exact IH|].
    assert (Ep : opens p = false) by (destruct (opens p); auto; discriminate (H eq_refl)). rewrite Ep. cbn [orb]. destruct (opens q); [apply sub_mid|apply sub_keep, sub_mid].
Qed.
(** at most one element with [X] *)
Fixpoint one {T} (X : T -> Prop) (l : list T) : Prop := match l with [] => True | x :: l => (X x -> none X l) /\ one X l end.
Lemma one_sub {T} (X : T -> Prop) l l' : Sub l l' -> one X l' -> one X l.
Proof. induction 1; cbn [one]; auto; [|intros (_ & B); auto]. intros (A & B). split; auto. intro K. eapply none_sub; eauto. Qed.
Lemma none_one {T} (X : T -> Prop) l : none X l -> one X l.
Proof. induction l; cbn [one]; auto. intro H. apply none_tail in H. destruct H. split; auto. Qed.
Lemma one_snoc {T} (X : T -> Prop) l x : one X l -> (X x -> none X l) -> one X (l ++ [x]).
Proof.
  induction l as [|y l IH]; cbn [one app]; [intros _ _; split; [constructor|exact I]|]. intros (A & B) H. split.
  - intro K. apply none_snoc; auto. intro C. specialize (H C). apply none_tail in H. tauto.
  - apply IH; auto. intro C. specialize (H C). now apply none_tail in H.
Qed.
Lemma repeated_more ms xs : forall m n, repeated ms xs -> (0 < n)%nat -> repeated (ms ++ [m]) (xs ++ repeat m n).
Proof. intros m n H K. destruct n; [lia|]. now constructor. Qed.
Lemma repeat_snoc {T} (m : T) n : repeat m n ++ [m] = repeat m (S n).
Proof. induction n; cbn; auto. cbn in IHn. now rewrite IHn. Qed.

(** ** Phases *)
Definition isP1 (id : Z) (p : cpkt) : Prop := exists m, reads_as p m /\ is1 id m = true.
Definition isA (id : Z) (x : Z * list Z) : Prop := x = (64, be16 id).
Lemma is1_id id m : is1 id m = true <-> pm_qos m = Base.Q1 /\ pm_id m = id.
Proof. unfold is1. rewrite andb_true_iff, Z.eqb_eq. destruct (pm_qos m); cbn; intuition congruence. Qed.
Definition free1 (id : Z) (up : list cpkt) (D : list (Z * list Z)) (pub arr : list publish_msg) : Prop :=
  none (isP1 id) up /\ none (isA id) D /\ repeated pub arr.
(** the publish was sent, [lost]: it was not stored *)
Definition begun1 (id : Z) (lost : Prop) (up : list cpkt) (D : list (Z * list Z)) (pub arr : list publish_msg) : Prop :=
  (exists ms m xs n, pub = ms ++ [m] /\ arr = xs ++ repeat m n /\ repeated ms xs /\
     (forall p m', In p up -> reads_as p m' -> is1 id m' = true -> undup m' = m) /\
     one (isA id) D /\ one (isP1 id) (cur up) /\
     (~ none (isA id) D -> (0 < n)%nat /\ none (isP1 id) (cur up) /\ existsb opens up = false)) \/
  free1 id up D pub arr /\ lost.
Definition phase1 (id : Z) (o : option flight) (lost : Prop) (up : list cpkt) (D : list (Z * list Z)) (pub arr : list publish_msg) : Prop :=
  match o with Some (F _ Base.Q1 s) => begun1 id lost up D pub arr | _ => free1 id up D pub arr end.
Ltac phases1 o := let q := fresh "q" in destruct o as [[? q ?]|]; [destruct q|]; cbn [phase1] in *.

Lemma free1_sub id up D pub arr up' D' : Sub up' up -> Sub D' D -> free1 id up D pub arr -> free1 id up' D' pub arr.
Proof. intros Hu Hd (A1 & A2 & A3). split; [eapply none_sub; eauto|]. split; [eapply none_sub; eauto|auto]. Qed.
(** something is lost *)
Lemma begun1_sub id lost up D pub arr up' D' : Sub up' up -> Sub (cur up') (cur up) -> Sub D' D -> (~ none (isA id) D -> existsb opens up = false -> existsb opens up' = false) ->
  begun1 id lost up D pub arr -> begun1 id lost up' D' pub arr.
Proof.
  intros Hu Hc Hd Ho [(ms & m & xs & n & A1 & A2 & A3 & A4 & A5 & A6 & A7)|(A1 & A2)].
  - left. exists ms, m, xs, n. split; auto. split; auto. split; auto. split; [intros p m' Hp; apply A4; eapply sub_in; eauto|]. split; [eapply one_sub; eauto|]. split; [eapply one_sub; eauto|].
    intro K. assert (K' : ~ none (isA id) D) by (intro C; apply K; eapply none_sub; eauto). destruct (A7 K') as (B1 & B2 & B3). split; auto. split; [eapply none_sub; eauto|auto].
  - right. split; auto. eapply free1_sub; eauto.
Qed.
Lemma phase1_sub id o lost up D pub arr up' D' : Sub up' up -> Sub (cur up') (cur up) -> Sub D' D -> (~ none (isA id) D -> existsb opens up = false -> existsb opens up' = false) ->
  phase1 id o lost up D pub arr -> phase1 id o lost up' D' pub arr.
Proof. intros Hu Hc Hd Ho H. phases1 o; solve [eapply begun1_sub; eauto|eapply free1_sub; eauto]. Qed.
Lemma sub_opens (u u' : list cpkt) : Sub u' u -> existsb opens u = false -> existsb opens u' = false.
Proof. induction 1; cbn; auto; rewrite !orb_false_iff; intuition. Qed.
Lemma phase1_down id o lost up D pub arr D' : Sub D' D -> phase1 id o lost up D pub arr -> phase1 id o lost up D' pub arr.
Proof. intro H. apply phase1_sub; auto using sub_refl. Qed.
Lemma phase1_lost id o (lost lost' : Prop) up D pub arr : (lost -> lost') -> phase1 id o lost up D pub arr -> phase1 id o lost' up D pub arr.
Proof. intros K H. phases1 o; auto. destruct H as [H|(H1 & H2)]; [left; auto|right; auto]. Qed.
(** a packet that is not a QoS 1 publish is sent *)
Lemma phase1_up id o lost up D pub arr p : ~ isP1 id p -> opens p = false -> phase1 id o lost up D pub arr -> phase1 id o lost (up ++ [p]) D pub arr.
Proof.
  intros Hp Ho H.
  assert (Bf : free1 id up D pub arr -> free1 id (up ++ [p]) D pub arr) by (intros (A1 & A2 & A3); split; [apply none_snoc; auto|auto]).
  assert (B : begun1 id lost up D pub arr -> begun1 id lost (up ++ [p]) D pub arr).
  { intros [(ms & m & xs & n & A1 & A2 & A3 & A4 & A5 & A6 & A7)|(A1 & A2)]; [left|right; auto]. exists ms, m, xs, n. split; auto. split; auto. split; auto. split.
    - intros p0 m' K R I1. apply in_app_iff in K. destruct K as [K|[<-|[]]]; [eauto|]. exfalso. apply Hp. exists m'. auto.
    - rewrite cur_snoc by auto. split; auto. split; [apply one_snoc; auto; contradiction|]. intro K. destruct (A7 K) as (B1 & B2 & B3). split; auto. split; [apply none_snoc; auto|]. rewrite existsb_app. cbn. now rewrite B3, Ho. }
  phases1 o; auto.
Qed.
Lemma phase1_other id o lost up D pub arr x : ~ isA id x -> phase1 id o lost up D pub arr -> phase1 id o lost up (D ++ [x]) pub arr.
Proof.
  intros Hx H.
  assert (Bf : free1 id up D pub arr -> free1 id up (D ++ [x]) pub arr) by (intros (A1 & A2 & A3); split; auto; split; [apply none_snoc; auto|auto]).
  assert (B : begun1 id lost up D pub arr -> begun1 id lost up (D ++ [x]) pub arr).
  { intros [(ms & m & xs & n & A1 & A2 & A3 & A4 & A5 & A6 & A7)|(A1 & A2)]; [left|right; auto]. exists ms, m, xs, n. split; auto. split; auto. split; auto. split; auto. split; [apply one_snoc; auto; contradiction|]. split; auto.
    intro K. apply A7. intro C. apply K. apply none_snoc; auto. }
  phases1 o; auto.
Qed.
(** a new connection *)
Lemma phase1_connect id o lost up D pub arr up' : up' = up \/ (exists m, up' = up ++ [KConnect m]) -> phase1 id o lost up D pub arr -> phase1 id o lost up' [] pub arr.
Proof.
  intros Hu H. assert (NP : forall m, ~ isP1 id (KConnect m)) by (intros m (m' & (_ & []) & _)).
  assert (Bf : free1 id up D pub arr -> free1 id up' [] pub arr).
  { intros (A1 & A2 & A3). split; [destruct Hu as [->|(m & ->)]; auto; apply none_snoc; auto|]. split; [constructor|auto]. }
  assert (B : begun1 id lost up D pub arr -> begun1 id lost up' [] pub arr).
  { intros [(ms & m & xs & n & A1 & A2 & A3 & A4 & A5 & A6 & A7)|(A1 & A2)]; [left|right; auto]. exists ms, m, xs, n. split; auto. split; auto. split; auto. split; [|split; [exact I|split; [|intro K; exfalso; apply K; constructor]]].
    - destruct Hu as [->|(m0 & ->)]; auto. intros p m' K R I1. apply in_app_iff in K. destruct K as [K|[<-|[]]]; [eauto|]. exfalso. apply (NP m0). exists m'. auto.
    - destruct Hu as [->|(m0 & ->)]; auto. rewrite cur_new by reflexivity. exact I. }
  phases1 o; auto.
Qed.
(** the server gets the publish *)
Lemma phase1_serve id o lost p m up D pub arr : reads_as p m -> is1 id m = true -> opens p = false -> phase1 id o lost (p :: up) D pub arr ->
  phase1 id o lost up (if existsb opens up then D else D ++ [(64, be16 id)]) pub (arr ++ [undup m]).
Proof.
  intros Hm H1 Ho H. assert (Hp : isP1 id p) by (exists m; auto).
  assert (Bf : free1 id (p :: up) D pub arr -> False) by (intros (A & _); apply none_tail in A; now destruct A).
  assert (B : begun1 id lost (p :: up) D pub arr -> begun1 id lost up (if existsb opens up then D else D ++ [(64, be16 id)]) pub (arr ++ [undup m])).
  { intros [(ms & m1 & xs & n & A1 & A2 & A3 & A4 & A5 & A6 & A7)|(A1 & A2)]; [left|exfalso; auto]. rewrite (A4 p m) by (auto; now left).
    exists ms, m1, xs, (S n). split; auto. split; [rewrite A2, <- app_assoc, repeat_snoc; reflexivity|]. split; auto. split; [intros q m' Hq; apply A4; now right|].
    destruct (existsb opens up) eqn:Eo.
    - rewrite cur_tail in A6, A7 by auto. split; auto. split; auto. intro K. destruct (A7 K) as (_ & _ & C). cbn in C. rewrite Eo, orb_true_r in C. discriminate.
    - rewrite (cur_none up) by auto. assert (Ec : cur (p :: up) = p :: up) by (apply cur_none; cbn; now rewrite Ho, Eo). rewrite Ec in *. destruct A6 as (A6 & A6').
      assert (ND : ~ (~ none (isA id) D)) by (intro K; destruct (A7 K) as (_ & C & _); apply none_tail in C; tauto).
      split; [|split; [apply A6'|]].
      + apply one_snoc; auto. intros _. assert (Dc : none (isA id) D \/ ~ none (isA id) D).
        { clear. induction D as [|x D IH]; [left; constructor|]. destruct (list_eq_dec Z.eq_dec (snd x) (be16 id)) as [E|E], (Z.eq_dec (fst x) 64) as [E2|E2].
          - right. intro C. apply none_tail in C. destruct C as (C & _). apply C. destruct x. unfold isA. cbn in *. congruence.
          - destruct IH as [IH|IH]; [left; constructor; auto; destruct x; unfold isA; cbn in *; congruence|right; intro C; apply none_tail in C; tauto].
          - destruct IH as [IH|IH]; [left; constructor; auto; destruct x; unfold isA; cbn in *; congruence|right; intro C; apply none_tail in C; tauto].
          - destruct IH as [IH|IH]; [left; constructor; auto; destruct x; unfold isA; cbn in *; congruence|right; intro C; apply none_tail in C; tauto]. }
        tauto.
      + intros _. split; [lia|]. split; auto. }
  phases1 o; auto; exfalso; auto.
Qed.
(** PUBACK is handled *)
Lemma begun1_acked id lost up D pub arr : begun1 id lost up ((64, be16 id) :: D) pub arr -> free1 id up D pub arr.
Proof.
  intros [(ms & m & xs & n & -> & -> & A3 & A4 & (A5 & A5') & A6 & A7)|((_ & A2 & _) & _)]; [|apply none_tail in A2; exfalso; apply A2; reflexivity].
  destruct A7 as (B1 & B2 & B3); [intro C; apply none_tail in C; apply C; reflexivity|]. rewrite cur_none in B2 by auto. split; auto. split; [apply A5; reflexivity|]. now apply repeated_more.
Qed.
