(** Publishes end to end: proofs. *)
From Verif Require Import Base StateModel StateSpec StateHarness SerModel WireSpec SerHarness SerProofs4 CoreModel CoreHarness Machine MachSpec MachProofs MachFacts MachFacts2 NetSpec.

(** ** A publish is determined by its bytes *)
Lemma varlen_length n : Z.of_nat (length (varlen n)) = if n <? 128 then 1 else if n <? 16384 then 2 else if n <? 2097152 then 3 else 4.
Proof. unfold varlen. repeat destruct (_ <? _); reflexivity. Qed.
Lemma packet_inj f b f' b' : packet f b = packet f' b' -> f = f' /\ b = b'.
Proof.
  unfold packet. intro E. assert (Ef : f = f') by congruence. assert (E2 : varlen (zlen b) ++ b = varlen (zlen b') ++ b') by congruence. split; auto.
  assert (L : length b = length b').
  { apply (f_equal (@length Z)) in E2. rewrite !app_length in E2. pose proof (varlen_length (zlen b)) as V. pose proof (varlen_length (zlen b')) as V'. unfold zlen in *.
    destruct (Z.of_nat (length b) <? 128) eqn:?, (Z.of_nat (length b') <? 128) eqn:?, (Z.of_nat (length b) <? 16384) eqn:?, (Z.of_nat (length b') <? 16384) eqn:?,
      (Z.of_nat (length b) <? 2097152) eqn:?, (Z.of_nat (length b') <? 2097152) eqn:?; lia. }
  replace (zlen b') with (zlen b) in E2 by (unfold zlen; lia). now apply app_inv_head in E2.
Qed.
Lemma publish_packet_inj m m' : pkt_ok (KPublish m) -> pkt_ok (KPublish m') -> pm_qos m <> Q0 -> publish_packet m = publish_packet m' -> m = m'.
Proof.
  intros (H1 & H2 & _) (H1' & H2' & _) Hq E. unfold publish_packet in E. apply packet_inj in E. destruct E as (Ef & Eb).
  assert (Eq : pm_qos m' = pm_qos m).
  { unfold publish_first in Ef. destruct (pm_qos m), (pm_qos m'), (pm_dup m), (pm_dup m'), (pm_retain m), (pm_retain m'); try reflexivity; try congruence; cbn in Ef; discriminate. }
  assert (M : forall x, pm_qos x = pm_qos m -> name_ok (pm_topic x) -> (pm_qos x <> Q0 -> id_ok (pm_id x)) -> publish_means (publish_first x) (publish_body x) x).
  { intros x Ex K1 K2. pose proof (publish_first_range x). split; [lia|]. split; auto. split; auto. split; [apply K1|]. split; [intro C; congruence|]. intros _. apply K2. congruence. }
  apply (publish_means_inj (publish_first m) (publish_body m)).
  - apply M; auto.
  - rewrite Ef, Eb. apply M; auto.
  - left. apply H1.
  - left. apply H1'.
Qed.
Lemma undup_dup m : undup (with_dup m) = undup m.
Proof. reflexivity. Qed.
Lemma dup_ok m : pkt_ok (KPublish m) -> pkt_ok (KPublish (with_dup m)).
Proof. exact (fun H => H). Qed.

(** ** Lists *)
Inductive Sub {T} : list T -> list T -> Prop :=
| sub_nil : Sub [] []
| sub_keep x l l' : Sub l l' -> Sub (x :: l) (x :: l')
| sub_drop x l l' : Sub l l' -> Sub l (x :: l').
Lemma sub_refl {T} (l : list T) : Sub l l.
Proof. induction l; constructor; auto. Qed.
Lemma sub_in {T} (l l' : list T) x : Sub l l' -> In x l -> In x l'.
Proof. induction 1; cbn; auto; intros [->|H1]; auto. Qed.
Lemma sub_mid {T} (a : list T) x b : Sub (a ++ b) (a ++ x :: b).
Proof. induction a; cbn; [apply sub_drop, sub_refl|now apply sub_keep]. Qed.
Lemma sub_none {T} (l : list T) : Sub [] l.
Proof. induction l; constructor; auto. Qed.
(** no [X] before a [Y] *)
Fixpoint after {T} (X Y : T -> Prop) (l : list T) : Prop := match l with [] => True | x :: l => (X x -> Forall (fun y => ~ Y y) l) /\ after X Y l end.
Lemma after_sub {T} (X Y : T -> Prop) l l' : Sub l l' -> after X Y l' -> after X Y l.
Proof.
  induction 1; cbn [after]; auto.
  - intros (A & B). split; auto. intro K. specialize (A K). rewrite Forall_forall in *. intros y Hy. apply A. eapply sub_in; eauto.
  - intros (A & B). auto.
Qed.
Lemma after_snoc {T} (X Y : T -> Prop) l x : after X Y l -> (Y x -> Forall (fun y => ~ X y) l) -> after X Y (l ++ [x]).
Proof.
  induction l as [|y l IH]; cbn [after app]; [intros _ _; split; [constructor|exact I]|]. intros (A & B) H. split.
  - intro K. apply Forall_app. split; auto. constructor; auto. intro C. specialize (H C). inversion H; subst. auto.
  - apply IH; auto. intro C. specialize (H C). inversion H; auto.
Qed.

(** ** Bookkeeping *)
Lemma lookup_app l g id : lookup (l ++ [g]) id = match lookup l id with Some f => Some f | None => if f_id g =? id then Some g else None end.
Proof. unfold lookup. induction l as [|x l IH]; cbn; auto. destruct (f_id x =? id); auto. Qed.
Lemma lookup_set l id x j : lookup (spec_set l id x) j = match lookup l j with Some f => Some (if j =? id then F (f_id f) (f_qos f) x else f) | None => None end.
Proof.
  unfold lookup, spec_set. induction l as [|y l IH]; cbn; auto. destruct (f_id y =? id) eqn:E1; cbn; destruct (f_id y =? j) eqn:E2; auto.
  - replace (j =? id) with true by lia. reflexivity.
  - replace (j =? id) with false by lia. reflexivity.
Qed.
Lemma lookup_drop l id j : lookup (spec_drop l id) j = if j =? id then None else lookup l j.
Proof.
  unfold lookup, spec_drop. induction l as [|y l IH]; cbn; [destruct (j =? id); auto|]. destruct (f_id y =? id) eqn:E1; cbn.
  - rewrite IH. destruct (j =? id) eqn:E2; auto. replace (f_id y =? j) with false by lia. reflexivity.
  - destruct (f_id y =? j) eqn:E2; auto. replace (j =? id) with false by lia. reflexivity.
Qed.
Lemma lookup_flight l id : in_flight l id = match lookup l id with Some _ => true | None => false end.
Proof. unfold in_flight, lookup. induction l as [|y l IH]; cbn; auto. destruct (f_id y =? id); auto. Qed.
Lemma lookup_id l id f : lookup l id = Some f -> f_id f = id.
Proof. intro H. now apply lookup_in in H. Qed.
Lemma lookup_nodup l f : NoDup (ids l) -> In f l -> lookup l (f_id f) = Some f.
Proof.
  unfold lookup, ids. induction l as [|y l IH]; cbn; [contradiction|]. intros H [->|K]; [now rewrite Z.eqb_refl|]. inversion H; subst.
  destruct (f_id y =? f_id f) eqn:E; auto. exfalso. apply H2. apply in_map_iff. exists f. split; auto. lia.
Qed.
Lemma nodup_set l id x : NoDup (ids l) -> NoDup (ids (spec_set l id x)).
Proof. unfold ids, spec_set. intro H. rewrite map_map. erewrite map_ext; [exact H|]. intro f. destruct (f_id f =? id); reflexivity. Qed.
Lemma nodup_drop l id : NoDup (ids l) -> NoDup (ids (spec_drop l id)).
Proof.
  unfold ids, spec_drop. induction l as [|y l IH]; cbn; auto. intro H. inversion H; subst. destruct (negb _); cbn; auto. constructor; auto.
  intro C. apply H2. apply in_map_iff in C. destruct C as (f & E & K). apply filter_In in K. apply in_map_iff. exists f. intuition.
Qed.
Lemma nodup_snoc l f : NoDup (ids l) -> lookup l (f_id f) = None -> NoDup (ids (l ++ [f])).
Proof.
  unfold ids. intros H K. rewrite map_app. cbn.
  induction l as [|y l IH]; cbn in *; [constructor; [intros []|constructor]|]. inversion H; subst. unfold lookup in *. cbn in K.
  destruct (f_id y =? f_id f) eqn:E; [discriminate|]. constructor; auto. intro C. apply in_app_iff in C. destruct C as [C|[C|[]]]; auto. lia.
Qed.
Lemma nodup_step se o : NoDup (ids (sent se)) -> NoDup (ids (sent (snd (spec_step se o)))).
Proof.
  intro H. destruct o as [id q|id op q|id k op|id|].
  - cbn [spec_step]. destruct (qos_beq q Q0); auto. destruct (id =? 0); auto. unfold spec_add. rewrite lookup_flight. destruct (lookup (sent se) id) eqn:E; auto.
    destruct (_ <? _)%nat; auto. cbn. now apply nodup_snoc.
  - destruct q; [destruct op; auto|..]; (destruct op; [|cbn [spec_step]; destruct (id =? 0); auto; destruct (spec_add _ _ _ _ _); auto]).
    all: cbn [spec_step]; destruct (id =? 0); auto; destruct (lookup (sent se) id); auto; destruct (negb _); auto; destruct (f_st f); auto; cbn; now apply nodup_set.
  - cbn [spec_step]. destruct (id =? 0); auto. destruct (concerns_sent k op).
    + destruct (lookup (sent se) id) as [f|] eqn:E; auto. destruct (sender_table _ _ _ _); cbn; auto.
      * now apply nodup_set.
      * apply nodup_snoc; [now apply nodup_drop|]. cbn. rewrite lookup_drop, Z.eqb_refl. reflexivity.
      * now apply nodup_drop.
    + destruct (lookup (StateSpec.recvd se) id) as [f|]; auto. destruct (apply_action _ _ _) as [[a b] c]. auto.
  - cbn [spec_step]. destruct (lookup _ _); auto. cbn. now apply nodup_drop.
  - cbn. constructor.
Qed.

(** ** Phases of a publish *)
Definition isP (id : Z) (p : cpkt) : Prop := exists m, reads_as p m /\ is2 id m = true.
Definition isR (id : Z) (p : cpkt) : Prop := p = KAck Pubrel id.
Definition isC (id : Z) (x : Z * list Z) : Prop := x = (80, be16 id).
Definition isD (id : Z) (x : Z * list Z) : Prop := x = (112, be16 id).
Definition none {T} (X : T -> Prop) (l : list T) : Prop := Forall (fun x => ~ X x) l.
Lemma none_sub {T} (X : T -> Prop) l l' : Sub l l' -> none X l' -> none X l.
Proof. unfold none. rewrite !Forall_forall. intros H K x Hx. apply K. eapply sub_in; eauto. Qed.
Lemma none_snoc {T} (X : T -> Prop) l x : none X l -> ~ X x -> none X (l ++ [x]).
Proof. intros H K. apply Forall_app. split; auto. Qed.
Lemma none_tail {T} (X : T -> Prop) x l : none X (x :: l) -> ~ X x /\ none X l.
Proof. intro H. inversion H; auto. Qed.

(** not acknowledged: [h] the server holds it, [lost] it was not stored *)
Definition begun2 (id : Z) (lost : Prop) (up : list cpkt) (D : list (Z * list Z)) (h : bool) (pub del : list publish_msg) : Prop :=
  after (isP id) (isR id) up /\ after (isC id) (isD id) D /\ (h = true -> none (isR id) up) /\ (h = false -> none (isC id) D) /\
  (h = true /\ pub = del \/
   h = false /\ (exists m, pub = del ++ [m] /\ forall p m', In p up -> reads_as p m' -> is2 id m' = true -> undup m' = m) \/
   h = false /\ pub = del /\ none (isP id) up /\ lost).
(** PUBREC came *)
Definition half2 (id : Z) (up : list cpkt) (D : list (Z * list Z)) (h : bool) (pub del : list publish_msg) : Prop :=
  after (isR id) (isP id) up /\ after (isD id) (isC id) D /\ (h = false -> none (isP id) up) /\ (h = true -> none (isD id) D) /\ pub = del.
Definition free2 (id : Z) (up : list cpkt) (D : list (Z * list Z)) (h : bool) (pub del : list publish_msg) : Prop :=
  h = false /\ none (isP id) up /\ none (isC id) D /\ pub = del.
Definition unack (x : pstate) : bool := match x with PublishSend | PubAckPending | PubRecPending => true | _ => false end.
Definition phase (id : Z) (o : option flight) (lost : Prop) (up : list cpkt) (D : list (Z * list Z)) (h : bool) (pub del : list publish_msg) : Prop :=
  match o with
  | Some (F _ Q2 s) => if unack s then begun2 id lost up D h pub del else half2 id up D h pub del
  | _ => free2 id up D h pub del
  end.
Ltac phases o := let q := fresh "q" in let s := fresh "s" in destruct o as [[? q s]|]; [destruct q; [|destruct s|destruct s]|]; cbn [phase unack] in *.

Lemma begun_sub id lost up D h pub del up' D' : Sub up' up -> Sub D' D -> begun2 id lost up D h pub del -> begun2 id lost up' D' h pub del.
Proof.
  intros Hu Hd (A1 & A2 & A3 & A4 & A5). split; [eapply after_sub; eauto|]. split; [eapply after_sub; eauto|]. split; [intro E; eapply none_sub; eauto|]. split; [intro E; eapply none_sub; eauto|].
  destruct A5 as [A5|[(E & m & Em & A5)|(E & E2 & A5 & A6)]]; auto.
  - right. left. split; auto. exists m. split; auto. intros p m' Hp. apply A5. eapply sub_in; eauto.
  - right. right. split; auto. split; auto. split; auto. eapply none_sub; eauto.
Qed.
Lemma half_sub id up D h pub del up' D' : Sub up' up -> Sub D' D -> half2 id up D h pub del -> half2 id up' D' h pub del.
Proof.
  intros Hu Hd (A1 & A2 & A3 & A4 & A5). split; [eapply after_sub; eauto|]. split; [eapply after_sub; eauto|]. split; [intro E; eapply none_sub; eauto|]. split; [intro E; eapply none_sub; eauto|auto].
Qed.
Lemma free_sub id up D h pub del up' D' : Sub up' up -> Sub D' D -> free2 id up D h pub del -> free2 id up' D' h pub del.
Proof. intros Hu Hd (A1 & A2 & A3 & A4). split; auto. split; [eapply none_sub; eauto|]. split; [eapply none_sub; eauto|auto]. Qed.
Lemma phase_sub id o lost up D h pub del up' D' : Sub up' up -> Sub D' D -> phase id o lost up D h pub del -> phase id o lost up' D' h pub del.
Proof. intros Hu Hd H. phases o; solve [eapply begun_sub; eauto|eapply half_sub; eauto|eapply free_sub; eauto]. Qed.
Lemma phase_lost id o (lost lost' : Prop) up D h pub del : (lost -> lost') -> phase id o lost up D h pub del -> phase id o lost' up D h pub del.
Proof. intros K H. phases o; auto; destruct H as (A1 & A2 & A3 & A4 & A5); (split; [auto|split; [auto|split; [auto|split; [auto|]]]]); intuition. Qed.
Lemma phase_up id o lost up D h pub del p : ~ isP id p -> ~ isR id p -> phase id o lost up D h pub del -> phase id o lost (up ++ [p]) D h pub del.
Proof.
  intros Hp Hr H.
  assert (B : begun2 id lost up D h pub del -> begun2 id lost (up ++ [p]) D h pub del).
  { intros (A1 & A2 & A3 & A4 & A5). split; [apply after_snoc; auto; contradiction|]. split; auto. split; [intro E; apply none_snoc; auto|]. split; auto.
    destruct A5 as [A5|[(E & m & Em & A5)|(E & E2 & A5 & A6)]]; auto.
    - right. left. split; auto. exists m. split; auto. intros p0 m' K R I2. apply in_app_iff in K. destruct K as [K|[<-|[]]]; [eauto|]. exfalso. apply Hp. exists m'. auto.
    - right. right. split; auto. split; auto. split; auto. apply none_snoc; auto. }
  assert (Bh : half2 id up D h pub del -> half2 id (up ++ [p]) D h pub del).
  { intros (A1 & A2 & A3 & A4 & A5). split; [apply after_snoc; auto; contradiction|]. split; auto. split; [intro E; apply none_snoc; auto|]. auto. }
  assert (Bf : free2 id up D h pub del -> free2 id (up ++ [p]) D h pub del).
  { intros (A1 & A2 & A3 & A4). split; auto. split; [apply none_snoc; auto|auto]. }
  phases o; auto.
Qed.
Lemma phase_down id o lost up D h pub del x : ~ isC id x -> ~ isD id x -> phase id o lost up D h pub del -> phase id o lost up (D ++ [x]) h pub del.
Proof.
  intros Hp Hr H.
  assert (B : begun2 id lost up D h pub del -> begun2 id lost up (D ++ [x]) h pub del).
  { intros (A1 & A2 & A3 & A4 & A5). split; auto. split; [apply after_snoc; auto; contradiction|]. split; auto. split; [intro E; apply none_snoc; auto|]. auto. }
  assert (Bh : half2 id up D h pub del -> half2 id up (D ++ [x]) h pub del).
  { intros (A1 & A2 & A3 & A4 & A5). split; auto. split; [apply after_snoc; auto; contradiction|]. split; auto. split; [intro E; apply none_snoc; auto|]. auto. }
  assert (Bf : free2 id up D h pub del -> free2 id up (D ++ [x]) h pub del).
  { intros (A1 & A2 & A3 & A4). split; auto. split; auto. split; [apply none_snoc; auto|auto]. }
  phases o; auto.
Qed.
Lemma not_both id : ~ (80, be16 id) = (112, be16 id).
Proof. intro C. discriminate. Qed.
(** the server gets the publish *)
Lemma phase_serveP id o lost p m up D h pub del : reads_as p m -> is2 id m = true -> phase id o lost (p :: up) D h pub del ->
  phase id o lost up (D ++ [(80, be16 id)]) true pub (if h then del else del ++ [undup m]).
Proof.
  intros Hm H2 H. assert (Hp : isP id p) by (exists m; auto).
  assert (B : begun2 id lost (p :: up) D h pub del -> begun2 id lost up (D ++ [(80, be16 id)]) true pub (if h then del else del ++ [undup m])).
  { intros ((A0 & A1) & A2 & A3 & A4 & A5). split; auto. split; [apply after_snoc; auto; intro C; discriminate|]. split; [intros _; exact (A0 Hp)|]. split; [discriminate|].
    left. split; auto. destruct A5 as [(-> & ->)|[(-> & m1 & -> & A5)|(-> & _ & A5 & _)]]; auto.
    - rewrite (A5 p m); auto. now left.
    - apply none_tail in A5. now destruct A5. }
  assert (Bh : half2 id (p :: up) D h pub del -> half2 id up (D ++ [(80, be16 id)]) true pub (if h then del else del ++ [undup m])).
  { intros ((A0 & A1) & A2 & A3 & A4 & A5). destruct h; [|exfalso; specialize (A3 eq_refl); apply none_tail in A3; now destruct A3].
    split; auto. split; [apply after_snoc; auto; intros _; now apply A4|]. split; [discriminate|]. split; [intros _; apply none_snoc; [auto|intro C; discriminate]|auto]. }
  assert (Bf : free2 id (p :: up) D h pub del -> False) by (intros (_ & A & _); apply none_tail in A; now destruct A).
  phases o; auto; exfalso; auto.
Qed.
(** the server gets PUBREL *)
Lemma phase_serveR id o lost up D h pub del : phase id o lost (KAck Pubrel id :: up) D h pub del -> phase id o lost up (D ++ [(112, be16 id)]) false pub del.
Proof.
  intro H.
  assert (B : begun2 id lost (KAck Pubrel id :: up) D h pub del -> begun2 id lost up (D ++ [(112, be16 id)]) false pub del).
  { intros ((A0 & A1) & A2 & A3 & A4 & A5). assert (h = false) by (destruct h; auto; specialize (A3 eq_refl); apply none_tail in A3; exfalso; apply A3; reflexivity). subst h.
    split; auto. split; [apply after_snoc; [auto|intros _; exact (A4 eq_refl)]|]. split; [discriminate|]. split; [intros _; apply none_snoc; [auto|intro C; discriminate]|].
    destruct A5 as [(C & _)|[(_ & m1 & -> & A5)|(_ & -> & A5 & A6)]]; [discriminate|..].
    - right. left. split; auto. exists m1. split; auto. intros q m' Hq. apply A5. now right.
    - right. right. split; auto. split; auto. split; auto. now apply none_tail in A5. }
  assert (Bh : half2 id (KAck Pubrel id :: up) D h pub del -> half2 id up (D ++ [(112, be16 id)]) false pub del).
  { intros ((A0 & A1) & A2 & A3 & A4 & A5). split; auto. split; [apply after_snoc; auto; intro C; discriminate|]. split; [intros _; exact (A0 eq_refl)|]. split; [discriminate|auto]. }
  assert (Bf : free2 id (KAck Pubrel id :: up) D h pub del -> free2 id up (D ++ [(112, be16 id)]) false pub del).
  { intros (A1 & A2 & A3 & A4). split; auto. split; [now apply none_tail in A2|]. split; [apply none_snoc; [auto|intro C; discriminate]|auto]. }
  phases o; auto.
Qed.
