(** Publishes from the server, end to end: the invariant, and the steps without the client. *)
From Verif Require Import Base StateModel StateSpec StateHarness SerModel WireSpec SerHarness SerProofs4 CoreModel CoreHarness Machine MachSpec MachProofs MachFacts MachFacts2 NetProofs InSpec InProofs.

(** ** What concerns one identifier *)
Definition about (id : Z) (d : dpkt) : bool := match d with DPub m => pm_id m =? id | DRel i => i =? id | DOther _ _ => false end.
Definition dns (id : Z) (l : list dpkt) : list dpkt := filter (about id) l.
Definition up1 (id : Z) (p : cpkt) : list acktype := match p with KAck Pubrel _ => [] | KAck k i => if i =? id then [k] else [] | _ => [] end.
Definition ups (id : Z) (u : list cpkt) : list acktype := flat_map (up1 id) u.
Definition replies (p : cpkt) : Prop := match p with KAck Pubrel _ => False | KAck _ _ => True | _ => False end.
Fixpoint owes (id : Z) (j : job) : list acktype :=
  match j with Clear _ j | Show _ j => owes id j | Owe k i _ => up1 id (KAck k i) | _ => [] end.
Fixpoint pend (id : Z) (j : job) : list tok :=
  match j with Clear _ j => pend id j | Show e _ => if hands id (Did e) then [Did e] else [] | _ => [] end.
Definition eff (id : Z) (se : session) (j : job) : option flight :=
  match j with Note (Puback | Pubcomp) i _ => if i =? id then None else lookup (StateSpec.recvd se) id | _ => lookup (StateSpec.recvd se) id end.
Definition isdue (id : Z) (v : sender) : bool := existsb (Z.eqb id) (w_due v).
Lemma dns_app id l l' : dns id (l ++ l') = dns id l ++ dns id l'.
Proof. apply filter_app. Qed.
Lemma ups_app id l l' : ups id (l ++ l') = ups id l ++ ups id l'.
Proof. apply flat_map_app. Qed.
Lemma ups_sub id u1 p u2 : Sub (ups id (u1 ++ u2)) (ups id (u1 ++ p :: u2)).
Proof.
  rewrite !ups_app. cbn. assert (L : up1 id p = [] \/ exists k, up1 id p = [k]) by (destruct p; cbn; auto; destruct k; auto; destruct (id0 =? id); eauto).
  destruct L as [->|(k & ->)]; cbn; [apply sub_refl|apply sub_mid].
Qed.
Lemma ups_none id u : Forall (fun p => ~ replies p) u -> ups id u = [].
Proof. induction 1 as [|p u H _ IH]; cbn; auto. fold (ups id u). rewrite IH. destruct p; cbn in *; auto. destruct k; cbn in *; tauto. Qed.

(** ** The server's messages *)
Lemma flying_id v id m r : flying v id = Some (m, r) -> pm_id m = id.
Proof. intro H. apply find_some in H. cbn in H. lia. Qed.
Lemma find_ext' {T} (f g : T -> bool) l : (forall x, f x = g x) -> find f l = find g l.
Proof. intro H. induction l as [|x l IH]; cbn; auto. rewrite H, IH. reflexivity. Qed.
Lemma flying_finish v id i : flying (finish v id) i = if i =? id then None else flying v i.
Proof.
  unfold flying, finish. cbn [w_fly]. induction (w_fly v) as [|x l IH]; cbn; [destruct (i =? id); auto|]. destruct (pm_id (fst x) =? id) eqn:E; cbn.
  - rewrite IH. destruct (i =? id) eqn:E2; auto. replace (pm_id (fst x) =? i) with false by lia. reflexivity.
  - destruct (pm_id (fst x) =? i) eqn:E2; auto. replace (i =? id) with false by lia. reflexivity.
Qed.
Lemma flying_release v id i : flying (release v id) i = match flying v i with Some (m, r) => Some (m, if i =? id then true else r) | None => None end.
Proof.
  unfold flying, release. cbn [w_fly]. induction (w_fly v) as [|x l IH]; cbn; auto. destruct (pm_id (fst x) =? id) eqn:E; cbn; destruct (pm_id (fst x) =? i) eqn:E2; auto.
  - destruct x as (m, r). cbn in *. replace (i =? id) with true by lia. reflexivity.
  - destruct x as (m, r). cbn in *. replace (i =? id) with false by lia. reflexivity.
Qed.
Lemma find_snoc {T} (f : T -> bool) l x : find f (l ++ [x]) = match find f l with Some y => Some y | None => if f x then Some x else None end.
Proof. induction l as [|y l IH]; cbn; auto. destruct (f y); auto. Qed.
Lemma isdue_fly l v o lg i : isdue i (mkSender o l (map (fun f => pm_id (fst f)) l) lg) = match flying (mkSender o l v lg) i with None => false | _ => true end.
Proof. unfold isdue, flying. cbn [w_due w_fly]. induction l as [|x l IH]; cbn; auto. rewrite Z.eqb_sym. destruct (pm_id (fst x) =? i); auto. Qed.
Lemma isdue_filter id i l : existsb (Z.eqb i) (filter (fun x => negb (x =? id)) l) = if i =? id then false else existsb (Z.eqb i) l.
Proof.
  induction l as [|x l IH]; cbn; [destruct (i =? id); auto|]. destruct (x =? id) eqn:E; cbn; rewrite IH; destruct (i =? id) eqn:E2; auto.
  - replace (i =? x) with false by lia. reflexivity.
  - replace (i =? x) with false by lia. reflexivity.
Qed.

(** ** The invariant *)
Record Inv (gs : list dpkt) (l : list tok) (c : cstatus) (se : session) (j : job) (N : inet) : Prop := mkInv {
  v_gs : match j with Got ty body => exists x, gs = [x] /\ wire x = (ty, body) | _ => gs = [] end;
  v_ph : forall id, Ph id (flying (i_srv N) id) (isdue id (i_srv N)) (messages id N) (delivered id l ++ pend id j) (dns id (gs ++ i_down N)) (owes id j) (ups id (i_up N)) (eff id se j);
  v_ok : Forall dpkt_ok (gs ++ i_down N);
  v_ord : after (fun p => asks_in p = true) replies (i_up N);
  v_con : existsb asks_in (i_up N) = true -> i_ans N = None /\ forall id, dns id (gs ++ i_down N) = [] /\ owes id j = [];
  v_ans : i_ans N = None -> c = NotConnected;
  v_read : match i_ans N with None => i_read N = [] | Some sp => firstn 4 (i_read N) = firstn (length (i_read N)) [32; 2; sp; 0] end;
  v_wait : match j with Wait _ bs => i_read N = bs /\ (i_ans N = Some 0 -> forall id, lookup (StateSpec.recvd se) id = None) | _ => True end;
  v_open : w_open (i_srv N) = false -> w_fly (i_srv N) = [];
  v_note : match j with Note Puback id _ => lookup (StateSpec.recvd se) id = Some (F id Base.Q1 PubAckSend) | Note Pubcomp id _ => lookup (StateSpec.recvd se) id = Some (F id Q2 PubCompSend) | _ => True end;
  v_fly : forall id m r, flying (i_srv N) id = Some (m, r) -> dpkt_ok (DPub m);
  v_pend : forall id, pend id j <> [] -> owes id j = [Puback] \/ owes id j = [Pubrec] }.

Lemma exists_drop u1 p u2 : existsb asks_in (u1 ++ u2) = true -> existsb asks_in (u1 ++ p :: u2) = true.
Proof. rewrite !existsb_app. cbn. destruct (existsb asks_in u1), (asks_in p), (existsb asks_in u2); auto. Qed.
Lemma after_drop {T} (X Y : T -> Prop) u1 p u2 : after X Y (u1 ++ p :: u2) -> after X Y (u1 ++ u2).
Proof. apply after_sub, sub_mid. Qed.
Lemma app_if {T} (b : bool) (d rep : list T) : (if b then d else d ++ rep) = d ++ (if b then [] else rep).
Proof. destruct b; auto. now rewrite app_nil_r. Qed.

Lemma asks_exists p u : asks_in p = true -> existsb asks_in (p :: u) = true.
Proof. cbn. now intros ->. Qed.
Lemma Inv_w gs l c se j N N' : wstep N N' -> Inv gs l c se j N -> Inv gs l c se j N'.
Proof.
  intros S [A1 A2 A3 A4 A5 A6 A7 A8 A9 A10 A12 A11]. destruct S; cbn [i_up i_down i_srv i_ans i_read] in *; unfold messages in *; cbn [i_srv] in *.
  - (* the server takes a packet *) destruct H.
    + (* CONNECT *) cbn [asks_in andb existsb orb] in *. destruct (A5 eq_refl) as (-> & Hd). cbn [after asks_in] in A4. destruct A4 as (B1 & B2). specialize (B1 eq_refl).
      rewrite app_if. replace (d ++ (if existsb asks_in u then [] else [])) with d by (destruct (existsb asks_in u); now rewrite app_nil_r).
      constructor; cbn [i_up i_down i_srv i_ans i_read]; auto.
      * intro id. specialize (A2 id). destruct (Hd id) as (E1 & E2). unfold messages in *. cbn [i_srv w_log] in *. rewrite E1, E2 in *. replace (ups id (KConnect m :: u)) with (ups id u) in A2 by reflexivity. rewrite (ups_none id u B1) in *. rewrite (isdue_fly _ (w_due v)). apply Ph_due in A2. destruct v; exact A2.
      * intro K. rewrite K. split; auto.
      * destruct (existsb asks_in u); cbn [negb]; auto. now rewrite A7.
      * destruct j; auto. destruct A8 as (A8 & _). split; auto. intros K id. destruct (existsb asks_in u); [discriminate|]. cbn [negb] in K. destruct (w_open v) eqn:Eo; [discriminate|]. specialize (A9 eq_refl). specialize (A2 id). unfold flying in A2. rewrite A9 in A2. destruct A2 as (_ & _ & _ & _ & E & _). exact E.
      * intro K. discriminate.
    + (* PUBACK *) pose proof (flying_id _ _ _ _ H) as Hi. cbn [asks_in andb existsb orb] in *. destruct A4 as (_ & A4). rewrite app_if. replace (d ++ (if existsb asks_in u then [] else [])) with d by (destruct (existsb asks_in u); now rewrite app_nil_r).
      constructor; cbn [i_up i_down i_srv i_ans i_read]; auto.
      * intro i. specialize (A2 i). unfold messages in *. cbn [i_srv] in *. rewrite flying_finish. cbn [ups flat_map up1] in A2. fold (ups i u) in A2. destruct (i =? id) eqn:E.
        -- assert (i = id) by lia. subst i. rewrite Z.eqb_refl in A2. rewrite H in A2. eapply Ph_puback; eauto.
        -- replace (id =? i) with false in A2 by lia. exact A2.
      * intro K. cbn [finish w_open w_fly] in *. now rewrite (A9 K).
      * intros i m0 r0. rewrite flying_finish. destruct (i =? id); [discriminate|]. apply A12.
    + (* PUBREC *) pose proof (flying_id _ _ _ _ H) as Hi. cbn [asks_in andb existsb orb] in *. destruct A4 as (_ & A4). rewrite app_if.
      constructor; cbn [i_up i_down i_srv i_ans i_read]; auto.
      * intro i. specialize (A2 i). unfold messages in *. cbn [i_srv] in *. rewrite flying_release. cbn [ups flat_map up1] in A2. fold (ups i u) in A2. rewrite app_assoc, (dns_app i (gs ++ d)). destruct (i =? id) eqn:E.
        -- assert (i = id) by lia. subst i. rewrite Z.eqb_refl in A2. rewrite H in *. apply (Ph_pubrec _ _ _ _ _ _ _ _ _ (negb (existsb asks_in u)) H0) in A2. destruct (existsb asks_in u); cbn [negb] in A2; [exact A2|]. cbn [dns filter about]. rewrite Z.eqb_refl. exact A2.
        -- replace (id =? i) with false in A2 by lia. replace (dns i (if existsb asks_in u then [] else [DRel id])) with (@nil dpkt) by (destruct (existsb asks_in u); cbn; auto; replace (id =? i) with false by lia; reflexivity). rewrite app_nil_r. destruct (flying v i) as [(m0, r0)|]; exact A2.
      * rewrite app_assoc. apply Forall_app. split; auto. destruct (existsb asks_in u); constructor; [|constructor]. specialize (A12 _ _ _ H). rewrite <- Hi. apply A12. apply A12.
      * intro K. destruct (A5 K) as (B1 & B2). split; auto. rewrite K. intro i. rewrite app_nil_r. auto.
      * intro K. cbn [release w_open w_fly] in *. now rewrite (A9 K).
      * intros i m0 r0. rewrite flying_release. destruct (flying v i) as [(m1, r1)|] eqn:E; [|discriminate]. intro K. assert (m0 = m1) by congruence. subst m1. eapply A12; eauto.
    + (* PUBCOMP *) pose proof (flying_id _ _ _ _ H) as Hi. cbn [asks_in andb existsb orb] in *. destruct A4 as (_ & A4). rewrite app_if. replace (d ++ (if existsb asks_in u then [] else [])) with d by (destruct (existsb asks_in u); now rewrite app_nil_r).
      constructor; cbn [i_up i_down i_srv i_ans i_read]; auto.
      * intro i. specialize (A2 i). unfold messages in *. cbn [i_srv] in *. rewrite flying_finish. cbn [ups flat_map up1] in A2. fold (ups i u) in A2. destruct (i =? id) eqn:E.
        -- assert (i = id) by lia. subst i. rewrite Z.eqb_refl in A2. rewrite H in A2. eapply Ph_pubcomp; eauto.
        -- replace (id =? i) with false in A2 by lia. exact A2.
      * intro K. cbn [finish w_open w_fly] in *. now rewrite (A9 K).
      * intros i m0 r0. rewrite flying_finish. destruct (i =? id); [discriminate|]. apply A12.
    + (* ignored *) rewrite app_if. replace (d ++ (if existsb asks_in u then [] else [])) with d by (destruct (existsb asks_in u); now rewrite app_nil_r). assert (E : asks_in p = false) by (destruct p; auto; contradiction). rewrite E. cbn [andb]. destruct A4 as (_ & A4).
      constructor; cbn [i_up i_down i_srv i_ans i_read]; auto.
      * intro i. eapply Ph_sub; [apply sub_refl|apply sub_refl| |exact (A2 i)]. apply (ups_sub i [] p u).
      * intro K. apply A5. cbn. rewrite K. apply orb_true_r.
  - (* a packet to the server is lost *) constructor; cbn [i_up i_down i_srv i_ans i_read]; auto.
    + intro i. eapply Ph_sub; [apply sub_refl|apply sub_refl| |exact (A2 i)]. apply ups_sub.
    + eapply after_drop; eauto.
    + intro K. apply A5. now apply exists_drop.
  - (* a packet to the client is lost *) assert (Hs : forall i, Sub (dns i (gs ++ d1 ++ d2)) (dns i (gs ++ d1 ++ x :: d2))) by (intro i; rewrite !app_assoc; apply sub_filter, sub_mid).
    constructor; cbn [i_up i_down i_srv i_ans i_read]; auto.
    + intro i. eapply Ph_sub; [apply Hs|apply sub_refl|apply sub_refl|exact (A2 i)].
    + rewrite app_assoc in *. eapply sub_forall; [apply sub_mid|exact A3].
    + intro K. destruct (A5 K) as (B1 & B2). split; auto. intro i. destruct (B2 i) as (B3 & B4). split; auto. apply sub_empty. rewrite <- B3. apply Hs.
  - (* a new message *) rewrite app_if. constructor; cbn [i_up i_down i_srv i_ans i_read]; auto.
    + intro i. specialize (A2 i). unfold messages in *. cbn [i_srv w_log] in *. unfold flying in *. cbn [w_fly]. rewrite find_snoc, filter_app. cbn [fst filter]. rewrite app_assoc, (dns_app i (gs ++ d)). destruct (pm_id m =? i) eqn:E.
      * assert (i = pm_id m) by lia. subst i. rewrite H2 in *. apply (Ph_new _ m _ _ _ _ _ _ _ (negb (existsb asks_in u))) in A2. destruct (existsb asks_in u); cbn [negb] in A2; [exact A2|]. cbn [dns filter about]. rewrite Z.eqb_refl. exact A2.
      * rewrite app_nil_r. replace (dns i (if existsb asks_in u then [] else [DPub m])) with (@nil dpkt) by (destruct (existsb asks_in u); cbn; auto; now rewrite E). rewrite app_nil_r. destruct (find (fun f : publish_msg * bool => pm_id (fst f) =? i) (w_fly v)); exact A2.
    + rewrite app_assoc. apply Forall_app. split; auto. destruct (existsb asks_in u); [constructor|constructor; [exact H0|constructor]].
    + intro K. destruct (A5 K) as (B1 & B2). split; auto. rewrite K. intro i. rewrite app_nil_r. auto.
    + intro K. cbn [w_open] in K. congruence.
    + intros i m0 r0. unfold flying. cbn [w_fly]. rewrite find_snoc. destruct (find (fun f : publish_msg * bool => pm_id (fst f) =? i) (w_fly v)) as [x|] eqn:E; [intro K; apply (A12 i m0 r0); unfold flying; now rewrite E|]. destruct (_ =? i); [|discriminate]. intro K. assert (m0 = m) by congruence. now subst m0.
  - (* sent again *) pose proof (flying_id _ _ _ _ H0) as Hi. constructor; cbn [i_up i_down i_srv i_ans i_read]; auto.
    + intro i. specialize (A2 i). unfold messages in *. cbn [i_srv w_log] in *. unfold isdue in *. cbn [w_due] in *. rewrite isdue_filter. rewrite app_assoc, (dns_app i (gs ++ d)). destruct (i =? id) eqn:E.
      * assert (i = id) by lia. subst i. rewrite H0 in *. replace (existsb (Z.eqb id) (w_due v)) with true in A2 by (symmetry; apply existsb_exists; exists id; split; auto; lia). apply Ph_again in A2. replace (dns id [if rel then DRel id else DPub (as_dup m)]) with [if rel then DRel id else DPub (as_dup m)]; [unfold flying in *; cbn [w_fly]; rewrite H0; exact A2|].
        destruct rel; cbn; [now rewrite Z.eqb_refl|]. replace (pm_id m =? id) with true by lia. reflexivity.
      * replace (dns i [if rel then DRel id else DPub (as_dup m)]) with (@nil dpkt) by (destruct rel; cbn; [replace (id =? i) with false by lia|replace (pm_id m =? i) with false by lia]; reflexivity). rewrite app_nil_r. exact A2.
    + rewrite app_assoc. apply Forall_app. split; auto. constructor; auto. specialize (A12 _ _ _ H0). destruct rel; [rewrite <- Hi; apply A12; apply A12|now apply as_dup_ok].
    + intro K. congruence.
  - (* another packet *) constructor; cbn [i_up i_down i_srv i_ans i_read]; auto.
    + intro i. rewrite app_assoc, (dns_app i (gs ++ d)). cbn. rewrite app_nil_r. exact (A2 i).
    + rewrite app_assoc. apply Forall_app. split; auto.
    + intro K. destruct (A5 K) as (B1 & B2). split; auto. intro i. rewrite app_assoc, (dns_app i (gs ++ d)). cbn. rewrite app_nil_r. auto.
Qed.
