(** Proofs about the state engine model. *)
From Verif Require Import Base StateModel StateSpec StateHarness.

Lemma upd_app {A} (a : list A) x b y : upd (a ++ x :: b) (length a) y = a ++ y :: b.
Proof. induction a as [|h a IH]; cbn [upd app length]; [reflexivity|]; now rewrite IH. Qed.

Lemma upd_length {A} (l : list A) i x : length (upd l i x) = length l.
Proof. revert i; induction l as [|h l IH]; intros [|i]; cbn [upd length]; auto. Qed.

Lemma nth_mid {A} (a : list A) x b d : nth (length a) (a ++ x :: b) d = x.
Proof. rewrite app_nth2 by lia. now rewrite Nat.sub_diag. Qed.

Definition slot_ok (r : rec) : Prop := rid r = 0 -> r = empty_rec.
Definition slots_ok (l : list rec) : Prop := Forall slot_ok l.

Lemma filter_firstn_S (l : list rec) k r :
  nth_error l k = Some r ->
  firstn (S k) l = firstn k l ++ [r] /\ skipn k l = r :: skipn (S k) l.
Proof.
  revert l; induction k as [|k IH]; intros [|h l] H; cbn [nth_error] in H; try discriminate.
  - inversion H; subst. split; reflexivity.
  - destruct (IH _ H) as [E1 E2]. split.
    + cbn [firstn app]. cbn [firstn] in E1. now rewrite E1.
    + cbn [skipn]. exact E2.
Qed.

Lemma repeat_snoc {A} (x : A) n : repeat x n ++ [x] = repeat x (S n).
Proof. induction n as [|n IH]; cbn [repeat app]; [reflexivity|]. f_equal. exact IH. Qed.

Lemma live_length_le (l : list rec) : (length (filter live l) <= length l)%nat.
Proof. induction l as [|r l IH]; cbn [filter length]; [lia|]. destruct (live r); cbn [length]; lia. Qed.

Lemma compact_loop_inv l : slots_ok l -> forall k, (k <= length l)%nat ->
  let j := length (filter live (firstn k l)) in
  fold_left compact_body (seq 0 k) (l, None) =
  (filter live (firstn k l) ++ repeat empty_rec (k - j) ++ skipn k l,
   if (j =? k)%nat then None else Some j).
Proof.
  intros Hok; induction k as [|k IH]; intros Hk.
  - reflexivity.
  - cbn zeta. rewrite seq_S, fold_left_app. cbn [fold_left plus].
    rewrite IH by lia. clear IH.
    destruct (nth_error l k) as [r|] eqn:E; [|apply nth_error_None in E; lia].
    destruct (filter_firstn_S _ _ _ E) as [E1 E2].
    set (P := filter live (firstn k l)) in *.
    assert (HP : (length P <= k)%nat).
    { unfold P. pose proof (live_length_le (firstn k l)) as H. rewrite firstn_length in H. lia. }
    rewrite E1, filter_app. fold P. rewrite E2.
    assert (Hr : slot_ok r).
    { unfold slots_ok in Hok; rewrite Forall_forall in Hok. apply Hok. eapply nth_error_In; eauto. }
    unfold compact_body.
    assert (Hn : nth k (P ++ repeat empty_rec (k - length P) ++ r :: skipn (S k) l) empty_rec = r).
    { rewrite app_assoc.
      replace k with (length (P ++ repeat empty_rec (k - length P))) at 1.
      - apply nth_mid.
      - rewrite app_length, repeat_length. lia. }
    rewrite Hn. cbn [filter]. unfold live at 1 2 3 4.
    destruct (rid r =? 0) eqn:Er; cbn [negb].
    + assert (r = empty_rec) by (apply Hr; lia). subst r.
      rewrite app_nil_r.
      replace (P ++ repeat empty_rec (k - length P) ++ empty_rec :: skipn (S k) l)
        with (P ++ repeat empty_rec (S k - length P) ++ skipn (S k) l).
      2:{ replace (S k - length P)%nat with (S (k - length P)) by lia.
          rewrite <- repeat_snoc, <- app_assoc. reflexivity. }
      destruct (Nat.eqb_spec (length P) k) as [Heq|Hne];
        destruct (Nat.eqb_spec (length P) (S k)); try lia; f_equal; congruence.
    + rewrite app_length; cbn [length].
      destruct (Nat.eqb_spec (length P) k) as [Heq|Hne].
      * replace (length P + 1 =? S k)%nat with true by (symmetry; apply Nat.eqb_eq; lia).
        rewrite Heq, Nat.sub_diag. replace (S k - (k + 1))%nat with 0%nat by lia.
        cbn [repeat app]. rewrite <- app_assoc. reflexivity.
      * replace (length P + 1 =? S k)%nat with false by (symmetry; apply Nat.eqb_neq; lia).
        destruct (k - length P)%nat as [|m] eqn:Em; [lia|].
        cbn [repeat].
        replace (mkRec (rid r) (rqos r) (rst r)) with r by (destruct r; reflexivity).
        change ((empty_rec :: repeat empty_rec m) ++ r :: skipn (S k) l)
          with (empty_rec :: (repeat empty_rec m ++ r :: skipn (S k) l)).
        rewrite upd_app.
        assert (Hk2 : k = length (P ++ r :: repeat empty_rec m)).
        { rewrite app_length; cbn [length]; rewrite repeat_length; lia. }
        replace (P ++ r :: repeat empty_rec m ++ r :: skipn (S k) l)
          with ((P ++ r :: repeat empty_rec m) ++ r :: skipn (S k) l)
          by (rewrite <- app_assoc; reflexivity).
        rewrite Hk2 at 2. rewrite upd_app.
        f_equal; [|f_equal; lia].
        rewrite <- !app_assoc. cbn [app]. f_equal. f_equal.
        replace (S k - (length P + 1))%nat with (S m) by lia.
        rewrite <- repeat_snoc, <- app_assoc. reflexivity.
Qed.

Lemma compactRecords_spec l : slots_ok l ->
  compactRecords l = filter live l ++ repeat empty_rec (length l - length (filter live l)).
Proof.
  intros H. unfold compactRecords.
  rewrite (compact_loop_inv l H (length l)) by lia. cbn [fst].
  rewrite firstn_all, skipn_all, app_nil_r. reflexivity.
Qed.

Lemma filter_live_repeat n : filter live (repeat empty_rec n) = [].
Proof. induction n; cbn [repeat filter]; auto. Qed.

Lemma filter_idem {A} (f : A -> bool) l : filter f (filter f l) = filter f l.
Proof.
  induction l as [|x l IH]; cbn [filter]; [reflexivity|].
  destruct (f x) eqn:E; cbn [filter]; rewrite ?E, IH; reflexivity.
Qed.

Lemma slots_ok_repeat n : slots_ok (repeat empty_rec n).
Proof. apply Forall_forall. intros x Hx _. now apply repeat_spec in Hx. Qed.

Lemma slots_ok_filter l : slots_ok l -> slots_ok (filter live l).
Proof.
  unfold slots_ok; rewrite !Forall_forall. intros H x Hx. apply filter_In in Hx. apply H, Hx.
Qed.

Lemma compact_abs l : slots_ok l -> abs (compactRecords l) = abs l.
Proof.
  intros H. unfold abs. rewrite compactRecords_spec by exact H.
  now rewrite filter_app, filter_live_repeat, app_nil_r, filter_idem.
Qed.

Lemma compact_length l : slots_ok l -> length (compactRecords l) = length l.
Proof.
  intros H. rewrite compactRecords_spec by exact H.
  rewrite app_length, repeat_length. pose proof (live_length_le l). lia.
Qed.

Lemma compact_slots_ok l : slots_ok l -> slots_ok (compactRecords l).
Proof.
  intros H. rewrite compactRecords_spec by exact H. apply Forall_app. split.
  - now apply slots_ok_filter.
  - apply slots_ok_repeat.
Qed.

(** Every array is an occupied-ended prefix followed by free slots. *)
Lemma split_tail l : slots_ok l ->
  exists p k, l = p ++ repeat empty_rec k /\
    (p = [] \/ exists p' r, p = p' ++ [r] /\ live r = true).
Proof.
  induction l as [|r l IH] using rev_ind; intros H.
  - exists [], 0%nat. auto.
  - apply Forall_app in H. destruct H as [H1 H2]. inversion H2 as [|? ? H3 _]; subst.
    destruct (live r) eqn:E.
    + exists (l ++ [r]), 0%nat. cbn [repeat]. rewrite app_nil_r. split; [reflexivity|].
      right. now exists l, r.
    + destruct (IH H1) as (p & k & E1 & E2). exists p, (S k).
      assert (r = empty_rec). { apply H3. unfold live in E. lia. } subst r.
      split; [|exact E2]. rewrite E1, <- app_assoc. f_equal. apply repeat_snoc.
Qed.

Lemma add_scan_found l i id av :
  (i <= length l)%nat ->
  add_scan l i id av true =
  if existsb (fun r => live r && (rid r =? id)) (firstn i l) then (true, None) else (false, av).
Proof.
  induction i as [|i IH]; intros Hi.
  - reflexivity.
  - cbn [add_scan].
    destruct (nth_error l i) as [r|] eqn:E; [|apply nth_error_None in E; lia].
    destruct (filter_firstn_S _ _ _ E) as [E1 _].
    rewrite (nth_error_nth _ _ empty_rec E), E1, existsb_app, IH by lia.
    cbn [existsb]. change (live r) with (negb (rid r =? 0)).
    destruct (rid r =? 0) eqn:E0; cbn [negb andb].
    + now rewrite !orb_false_r.
    + destruct (rid r =? id); cbn [orb]; rewrite ?orb_true_r, ?orb_false_r; reflexivity.
Qed.

Lemma add_scan_free p id av m : forall t,
  add_scan (p ++ repeat empty_rec m ++ t) (length p + m) id av false =
  add_scan (p ++ repeat empty_rec m ++ t) (length p) id
    (if (m =? 0)%nat then av else Some (length p)) false.
Proof.
  revert av; induction m as [|m IH]; intros av t.
  - cbn [Nat.eqb]. now rewrite Nat.add_0_r.
  - replace (length p + S m)%nat with (S (length p + m)) by lia. cbn [add_scan Nat.eqb].
    assert (E : nth (length p + m) (p ++ repeat empty_rec (S m) ++ t) empty_rec = empty_rec).
    { rewrite app_nth2 by lia. replace (length p + m - length p)%nat with m by lia.
      rewrite app_nth1 by (rewrite repeat_length; lia).
      apply nth_repeat. }
    rewrite E. cbn [rid empty_rec Z.eqb].
    replace (repeat empty_rec (S m) ++ t) with (repeat empty_rec m ++ (empty_rec :: t))
      by (rewrite <- repeat_snoc, <- app_assoc; reflexivity).
    rewrite IH. destruct m; cbn [Nat.eqb]; [|reflexivity]. now rewrite Nat.add_0_r.
Qed.

Lemma add_scan_spec l id p k : l = p ++ repeat empty_rec k ->
  (p = [] \/ exists p' r, p = p' ++ [r] /\ live r = true) ->
  add_scan l (length l) id None false =
  if existsb (fun r => live r && (rid r =? id)) l then (true, None)
  else (false, if (k =? 0)%nat then None else Some (length p)).
Proof.
  intros -> Hp.
  assert (Ex : existsb (fun r => live r && (rid r =? id)) (p ++ repeat empty_rec k) =
               existsb (fun r => live r && (rid r =? id)) p).
  { rewrite existsb_app.
    replace (existsb _ (repeat empty_rec k)) with false; [apply orb_false_r|].
    clear. induction k; cbn [repeat existsb]; auto. }
  rewrite Ex, app_length, repeat_length.
  pose proof (add_scan_free p id None k []) as HS. rewrite app_nil_r in HS. rewrite HS. clear HS.
  destruct Hp as [->|(p' & r & -> & Hr)].
  - cbn [length add_scan existsb]. reflexivity.
  - set (av := if (k =? 0)%nat then _ else _). clearbody av.
    rewrite app_length. cbn [length]. rewrite Nat.add_1_r. cbn [add_scan].
    assert (E : nth (length p') ((p' ++ [r]) ++ repeat empty_rec k) empty_rec = r).
    { rewrite <- app_assoc. cbn [app]. apply nth_mid. }
    rewrite E. unfold live in Hr.
    destruct (rid r =? 0) eqn:E0; [discriminate|].
    rewrite existsb_app. cbn [existsb]. change (live r) with (negb (rid r =? 0)). rewrite E0. cbn [negb andb].
    destruct (rid r =? id).
    + now rewrite orb_true_r.
    + rewrite add_scan_found by (rewrite !app_length; cbn [length]; lia).
      rewrite orb_false_r. cbn [orb].
      rewrite <- app_assoc, firstn_app, firstn_all, Nat.sub_diag. cbn [firstn].
      now rewrite app_nil_r.
Qed.

Lemma in_flight_abs l id :
  in_flight (abs l) id = existsb (fun r => live r && (rid r =? id)) l.
Proof.
  unfold in_flight, abs. induction l as [|r l IH]; cbn [filter map existsb]; [reflexivity|].
  destruct (live r) eqn:E; cbn [map existsb andb to_flight f_id]; rewrite IH; reflexivity.
Qed.

Lemma abs_app a b : abs (a ++ b) = abs a ++ abs b.
Proof. unfold abs. now rewrite filter_app, map_app. Qed.

Lemma abs_repeat n : abs (repeat empty_rec n) = [].
Proof. unfold abs. now rewrite filter_live_repeat. Qed.

Lemma slots_ok_app a b : slots_ok (a ++ b) <-> slots_ok a /\ slots_ok b.
Proof. apply Forall_app. Qed.

Lemma abs_length_le l : (length (abs l) <= length l)%nat.
Proof. unfold abs. rewrite map_length. apply live_length_le. Qed.

Lemma addRecord_spec l id q st :
  slots_ok l -> l <> [] -> id <> 0 -> q <> Q0 ->
  exists l', addRecord l id q st = Ok (fst (spec_add (length l) (abs l) id q st), l') /\
    abs l' = snd (spec_add (length l) (abs l) id q st) /\
    slots_ok l' /\ length l' = length l.
Proof.
  intros Hok Hne Hid Hq. unfold addRecord.
  replace (id =? 0) with false by lia.
  replace (qos_beq q Q0) with false by (destruct q; [congruence|reflexivity|reflexivity]).
  cbn [negb andb rassert].
  destruct (length l) as [|last] eqn:El; [destruct l; [congruence|discriminate]|].
  set (l1 := if negb (rid (nth last l empty_rec) =? 0) then compactRecords l else l).
  assert (H1 : slots_ok l1 /\ abs l1 = abs l /\ length l1 = length l).
  { unfold l1. destruct (negb _); repeat split;
      auto using compact_slots_ok, compact_abs, compact_length. }
  destruct H1 as (Hok1 & Habs1 & Hlen1).
  destruct (split_tail l1 Hok1) as (p & k & E1 & E2).
  rewrite (add_scan_spec l1 id p k E1 E2).
  rewrite <- in_flight_abs, Habs1. unfold spec_add.
  destruct (in_flight (abs l) id).
  { exists l1. cbn [fst snd]. repeat split; auto; congruence. }
  assert (Hk : (length (abs l) <? S last)%nat = negb (k =? 0)%nat).
  { unfold l1 in E1. rewrite <- El.
    destruct (negb (rid (nth last l empty_rec) =? 0)) eqn:Elast.
    - (* compacted *)
      rewrite compactRecords_spec in E1 by exact Hok.
      assert (Hkk : k = (length l - length (filter live l))%nat).
      { apply (f_equal (@length rec)) in E1 as E1'. 
        set (m := (length l - length (filter live l))%nat) in *.
        assert (Hnl : forall r, In r (filter live l) -> live r = true)
          by (intros r Hr; apply filter_In in Hr; tauto).
        assert (Hfp : filter live (filter live l ++ repeat empty_rec m) = filter live (p ++ repeat empty_rec k))
          by now rewrite E1.
        rewrite !filter_app, !filter_live_repeat, !app_nil_r, filter_idem in Hfp.
        destruct E2 as [->|(p' & r & -> & Hr)].
        - cbn [filter] in Hfp. rewrite Hfp in *. cbn [app length] in *.
          rewrite !repeat_length in E1'. unfold m in *. cbn [length] in *. lia.
        - rewrite !app_length, !repeat_length in E1'. cbn [length] in E1'.
          destruct (Nat.eq_dec k m) as [|Hkm]; [assumption|exfalso].
          assert (Hle : (length (filter live (p' ++ [r])) <= length (p' ++ [r]))%nat)
            by apply live_length_le.
          rewrite <- Hfp in Hle. rewrite app_length in Hle. cbn [length] in Hle.
          assert (Hkm2 : (k < m)%nat) by lia.
          (* the slot holding r is one of the free ones *)
          assert (Hnth : nth (length p') (filter live l ++ repeat empty_rec m) empty_rec = r).
          { rewrite E1, <- app_assoc. cbn [app]. apply nth_mid. }
          rewrite app_nth2 in Hnth by lia.
          rewrite nth_repeat in Hnth. subst r. discriminate. }
      unfold abs. rewrite map_length. pose proof (live_length_le l).
      destruct (Nat.ltb_spec (length (filter live l)) (length l));
        destruct (Nat.eqb_spec k 0); cbn [negb]; try reflexivity; lia.
    - (* last slot free *)
      assert (Hkp : k <> 0%nat).
      { intros ->. cbn [repeat] in E1. rewrite app_nil_r in E1.
        destruct E2 as [->|(p' & r & -> & Hr)]; [congruence|].
        rewrite E1 in El, Elast. rewrite app_length in El; cbn [length] in El.
        assert (last = length p') by lia. subst last.
        rewrite nth_mid in Elast. unfold live in Hr. congruence. }
      assert ((length (abs l) < length l)%nat).
      { rewrite E1, abs_app, abs_repeat, app_nil_r, app_length, repeat_length.
        pose proof (abs_length_le p). lia. }
      destruct (Nat.ltb_spec (length (abs l)) (length l));
        destruct (Nat.eqb_spec k 0); cbn [negb]; try reflexivity; lia. }
  rewrite Hk. destruct (Nat.eqb_spec k 0) as [Hk0|Hk0]; cbn [negb].
  - exists l1. cbn [fst snd]. repeat split; auto; congruence.
  - destruct k as [|k]; [congruence|]. cbn [repeat] in E1.
    exists (upd l1 (length p) (mkRec id q st)). cbn [fst snd].
    rewrite E1, upd_app. repeat split.
    + rewrite abs_app. change (mkRec id q st :: repeat empty_rec k)
        with ([mkRec id q st] ++ repeat empty_rec k).
      rewrite abs_app, abs_repeat, app_nil_r.
      rewrite <- Habs1, E1, abs_app.
      change (empty_rec :: repeat empty_rec k) with (repeat empty_rec (S k)).
      rewrite abs_repeat, app_nil_r. f_equal.
      unfold abs. cbn [filter]. unfold live. cbn [rid].
      replace (id =? 0) with false by lia. reflexivity.
    + rewrite E1 in Hok1. apply slots_ok_app in Hok1. apply slots_ok_app.
      split; [tauto|]. constructor; [intros H0; cbn in H0; lia|].
      apply slots_ok_repeat.
    + rewrite <- Hlen1 in El. rewrite E1 in El. rewrite app_length in *. cbn [length] in *.
      rewrite <- El. reflexivity.
Qed.

(** ** Lookup *)
Lemma find_loop_shift l k id :
  find_loop l k id = match find_loop l 0 id with Some (i, r) => Some ((k + i)%nat, r) | None => None end.
Proof.
  revert k; induction l as [|r l IH]; intros k; cbn [find_loop]; [reflexivity|].
  destruct (rid r =? id); [now rewrite Nat.add_0_r|].
  rewrite (IH (S k)), (IH 1%nat). destruct (find_loop l 0 id) as [[i r']|]; [|reflexivity].
  f_equal. f_equal. lia.
Qed.

Lemma find_loop_some l id i r : id <> 0 -> find_loop l 0 id = Some (i, r) ->
  exists p t, l = p ++ r :: t /\ i = length p /\ rid r = id /\ ~ In id (ids (abs p)) /\
    lookup (abs l) id = Some (to_flight r).
Proof.
  intros Hid. revert i; induction l as [|x l IH]; intros i H; cbn [find_loop] in H; [discriminate|].
  destruct (rid x =? id) eqn:E.
  - inversion H; subst. exists [], l. repeat split; auto; [lia|].
    unfold abs. cbn [filter]. change (live r) with (negb (rid r =? 0)).
    replace (rid r =? 0) with false by lia. cbn [negb map lookup find to_flight f_id].
    now rewrite E.
  - rewrite find_loop_shift in H. destruct (find_loop l 0 id) as [[j r']|] eqn:F; [|discriminate].
    inversion H; subst. destruct (IH _ eq_refl) as (p & t & -> & -> & Hr & Hn & Hl).
    exists (x :: p), t. repeat split; auto.
    + unfold abs. cbn [filter]. destruct (live x) eqn:Ex; [|exact Hn].
      cbn [map ids to_flight f_id]. intros [Hc|Hc]; [lia|]. apply Hn. exact Hc.
    + unfold abs. cbn [app filter]. destruct (live x) eqn:Ex; [|exact Hl].
      cbn [map]. unfold lookup. cbn [find to_flight f_id]. rewrite E. exact Hl.
Qed.

Lemma find_loop_none l id : id <> 0 -> find_loop l 0 id = None -> lookup (abs l) id = None.
Proof.
  intros Hid. induction l as [|x l IH]; intros H; [reflexivity|].
  cbn [find_loop] in H. destruct (rid x =? id) eqn:E; [discriminate|].
  rewrite find_loop_shift in H.
  destruct (find_loop l 0 id) as [[j r']|] eqn:F; [discriminate|].
  unfold abs. cbn [filter]. destruct (live x); [|exact (IH eq_refl)].
  cbn [map]. unfold lookup. cbn [find to_flight f_id]. rewrite E. exact (IH eq_refl).
Qed.

(** ** Map-like list operations *)
Lemma spec_drop_notin l id : ~ In id (ids l) -> spec_drop l id = l.
Proof.
  unfold spec_drop, ids. induction l as [|f l IH]; cbn [map filter]; intros H; [reflexivity|].
  destruct (f_id f =? id) eqn:E; [exfalso; apply H; left; lia|].
  cbn [negb]. f_equal. apply IH. intros Hc. apply H. now right.
Qed.
Lemma spec_set_notin l id st : ~ In id (ids l) -> spec_set l id st = l.
Proof.
  unfold spec_set, ids. induction l as [|f l IH]; cbn [map]; intros H; [reflexivity|].
  destruct (f_id f =? id) eqn:E; [exfalso; apply H; left; lia|].
  f_equal. apply IH. intros Hc. apply H. now right.
Qed.
Lemma spec_drop_mid a f b id : f_id f = id -> ~ In id (ids a) -> ~ In id (ids b) ->
  spec_drop (a ++ f :: b) id = a ++ b.
Proof.
  intros Hf Ha Hb. unfold spec_drop. rewrite filter_app. cbn [filter].
  replace (f_id f =? id) with true by lia. cbn [negb].
  fold (spec_drop a id). fold (spec_drop b id). now rewrite !spec_drop_notin.
Qed.
Lemma spec_set_mid a f b id st : f_id f = id -> ~ In id (ids a) -> ~ In id (ids b) ->
  spec_set (a ++ f :: b) id st = a ++ F id (f_qos f) st :: b.
Proof.
  intros Hf Ha Hb. unfold spec_set. rewrite map_app. cbn [map].
  replace (f_id f =? id) with true by lia.
  fold (spec_set a id st). fold (spec_set b id st). rewrite !spec_set_notin; auto. now rewrite Hf.
Qed.

Lemma abs_mid p r t : live r = true -> abs (p ++ r :: t) = abs p ++ to_flight r :: abs t.
Proof. intros H. rewrite abs_app. unfold abs at 2. cbn [filter]. rewrite H. reflexivity. Qed.
Lemma abs_mid_dead p r t : live r = false -> abs (p ++ r :: t) = abs p ++ abs t.
Proof. intros H. rewrite abs_app. unfold abs at 2. cbn [filter]. rewrite H. reflexivity. Qed.

Lemma ids_app a b : ids (a ++ b) = ids a ++ ids b.
Proof. apply map_app. Qed.

Lemma NoDup_mid a f b : NoDup (ids (a ++ f :: b)) -> ~ In (f_id f) (ids a) /\ ~ In (f_id f) (ids b).
Proof.
  rewrite ids_app. cbn [ids map]. intros H. apply NoDup_remove_2 in H.
  rewrite in_app_iff in H. tauto.
Qed.

(** ** updateRecord *)
Lemma updateRecord_delete p r t new :
  updateRecord (p ++ r :: t) (length p) new true = Ok (p ++ empty_rec :: t).
Proof.
  unfold updateRecord. rewrite nth_error_app2 by lia. rewrite Nat.sub_diag. cbn [nth_error].
  now rewrite upd_app.
Qed.
Lemma updateRecord_set p r t new :
  updateRecord (p ++ r :: t) (length p) new false = Ok (p ++ mkRec (rid r) (rqos r) new :: t).
Proof.
  unfold updateRecord. rewrite nth_error_app2 by lia. rewrite Nat.sub_diag. cbn [nth_error].
  now rewrite upd_app.
Qed.

(** ** Well-formed in-flight lists *)
Definition ok_sent (f : flight) : Prop :=
  f_id f <> 0 /\
  match f_qos f, f_st f with
  | Q1, (PublishSend | PubAckPending) => True
  | Q2, (PublishSend | PubRecPending | PubRelSend | PubCompPending) => True
  | _, _ => False
  end.
Definition ok_recvd (f : flight) : Prop :=
  f_id f <> 0 /\
  match f_qos f, f_st f with
  | Q1, PubAckSend => True
  | Q2, (PubRecSend | PubRelPending | PubCompSend) => True
  | _, _ => False
  end.

Record RelArr (ok : flight -> Prop) (o : option (list rec)) (cap : nat) (l : list flight) : Prop := {
  ra_abs : abs (arr o) = l;
  ra_len : length (arr o) = cap;
  ra_slots : slots_ok (arr o);
  ra_nodup : NoDup (ids l);
  ra_ok : Forall ok l
}.

Definition Rel (c : recs) (s : session) : Prop :=
  RelArr ok_sent (outRecs c) (cap_out s) (sent s) /\
  RelArr ok_recvd (inRecs c) (cap_in s) (recvd s).

Lemma arr_set_arr o l : length l = length (arr o) -> arr (set_arr o l) = l.
Proof. destruct o as [l0|]; cbn [arr set_arr]; [reflexivity|]. now destruct l. Qed.

Lemma RelArr_set ok o cap l l' f' :
  RelArr ok o cap l -> length l' = length (arr o) -> slots_ok l' -> abs l' = f' ->
  NoDup (ids f') -> Forall ok f' -> RelArr ok (set_arr o l') cap f'.
Proof.
  intros [H1 H2 H3 H4 H5] Hl Hs Ha Hn Ho.
  constructor; try rewrite arr_set_arr by exact Hl; auto. congruence.
Qed.

Lemma in_flight_iff l id : in_flight l id = true <-> In id (ids l).
Proof.
  unfold in_flight, ids. rewrite existsb_exists, in_map_iff.
  split; intros (x & H1 & H2); exists x; split; try tauto; lia.
Qed.

Lemma spec_add_ok (ok : flight -> Prop) cap l id q st :
  NoDup (ids l) -> Forall ok l -> ok (F id q st) ->
  NoDup (ids (snd (spec_add cap l id q st))) /\ Forall ok (snd (spec_add cap l id q st)).
Proof.
  intros Hn Ho Hf. unfold spec_add.
  destruct (in_flight l id) eqn:E; [cbn [snd]; auto|].
  destruct (length l <? cap)%nat; cbn [snd]; auto.
  split.
  - rewrite ids_app. cbn [ids map f_id]. apply NoDup_Add with (a := id) (l := ids l).
    + rewrite <- (app_nil_r (ids l)) at 1. apply Add_app.
    + split; auto. intros Hc. apply in_flight_iff in Hc. congruence.
  - apply Forall_app. split; auto.
Qed.

Lemma NoDup_ids_drop l id : NoDup (ids l) -> NoDup (ids (spec_drop l id)).
Proof.
  unfold ids, spec_drop. induction l as [|f l IH]; cbn [map filter]; intros H; [constructor|].
  inversion H as [|? ? H1 H2]; subst.
  destruct (negb (f_id f =? id)); [|auto]. cbn [map]. constructor; [|auto].
  intros Hc. apply H1. apply in_map_iff in Hc. destruct Hc as (x & E & Hx).
  apply filter_In in Hx. apply in_map_iff. exists x. tauto.
Qed.
Lemma ids_set l id st : ids (spec_set l id st) = ids l.
Proof.
  unfold ids, spec_set. rewrite map_map. apply map_ext. intros f.
  destruct (f_id f =? id); reflexivity.
Qed.
Lemma In_ids_drop l id x : In x (ids (spec_drop l id)) <-> In x (ids l) /\ x <> id.
Proof.
  unfold ids, spec_drop. rewrite !in_map_iff. split.
  - intros (f & E & Hf). apply filter_In in Hf. split; [exists f; tauto|lia].
  - intros ((f & E & Hf) & Hne). exists f. split; auto. apply filter_In. split; auto. lia.
Qed.
Lemma Forall_drop (ok : flight -> Prop) l id : Forall ok l -> Forall ok (spec_drop l id).
Proof.
  rewrite !Forall_forall. intros H x Hx. apply filter_In in Hx. apply H, Hx.
Qed.

(** ** Each engine call refines the specification step *)
Lemma nonempty_len {A} (l : list A) n : length l = n -> n <> 0%nat -> l <> [].
Proof. intros H Hn ->. cbn in H. lia. Qed.

Lemma engine_reserve c s id q :
  Rel c s -> call_ok (cap_out s) (cap_in s) (Reserve id q) ->
  exists c', engine_step c (CReserve id q) = Ok (fst (spec_step s (Reserve id q)), c') /\
             Rel c' (snd (spec_step s (Reserve id q))).
Proof.
  intros [Ho Hi] Hc. unfold engine_step, reserveState, spec_step.
  destruct (qos_beq q Q0) eqn:Eq; [cbn [rbind fst snd]; exists c; split; [reflexivity|split; assumption]|].
  destruct (id =? 0) eqn:Eid; [cbn [rbind fst snd]; exists c; split; [reflexivity|split; assumption]|].
  pose proof Ho as [H1 H2 H3 H4 H5].
  assert (Hn : cap_out s <> 0%nat) by (destruct q; cbn in Hc; [discriminate| |]; apply Hc; lia).
  destruct (addRecord_spec (arr (outRecs c)) id q PublishSend H3) as (l' & E & A & S & L).
  { eapply nonempty_len; eauto. } { lia. } { intros ->; discriminate. }
  rewrite E. cbn [rbind]. rewrite H1, H2 in *.
  destruct (spec_add (cap_out s) (sent s) id q PublishSend) as [st l2] eqn:Es.
  cbn [fst snd] in *.
  eexists. split; [reflexivity|]. split; cbn [set_out outRecs inRecs cap_out sent cap_in recvd].
  - eapply RelArr_set; eauto; [congruence| |].
    + change l2 with (snd (st, l2)). rewrite <- Es. apply (spec_add_ok ok_sent); auto.
      split; [cbn; lia|]. destruct q; cbn; auto; discriminate.
    + change l2 with (snd (st, l2)). rewrite <- Es. apply (spec_add_ok ok_sent); auto.
      split; [cbn; lia|]. destruct q; cbn; auto; discriminate.
  - exact Hi.
Qed.

Lemma find_spec o cap l ok id : RelArr ok o cap l -> id <> 0 ->
  match find_loop (arr o) 0 id with
  | None => lookup l id = None
  | Some (i, r) => exists p t, arr o = p ++ r :: t /\ i = length p /\ rid r = id /\
        live r = true /\ l = abs p ++ to_flight r :: abs t /\
        ~ In id (ids (abs p)) /\ ~ In id (ids (abs t)) /\ lookup l id = Some (to_flight r) /\
        ok (to_flight r)
  end.
Proof.
  intros [H1 H2 H3 H4 H5] Hid.
  destruct (find_loop (arr o) 0 id) as [[i r]|] eqn:E.
  - destruct (find_loop_some _ _ _ _ Hid E) as (p & t & E1 & E2 & E3 & E4 & E5).
    exists p, t. assert (Hlv : live r = true) by (unfold live; lia).
    assert (Hl : l = abs p ++ to_flight r :: abs t) by (rewrite <- H1, E1; now apply abs_mid).
    assert (HN : NoDup (ids (abs p ++ to_flight r :: abs t))) by congruence.
    apply NoDup_mid in HN. cbn [to_flight f_id] in HN. rewrite E3 in HN.
    repeat split; auto; try tauto.
    + rewrite <- H1. exact E5.
    + rewrite Hl in H5. apply Forall_app in H5. destruct H5 as [_ H5]. now inversion H5.
  - rewrite <- H1. now apply find_loop_none.
Qed.

Lemma engine_published c s id op q :
  Rel c s -> call_ok (cap_out s) (cap_in s) (Published id op q) ->
  exists c', engine_step c (CUpdatePublish id op q) = Ok (fst (spec_step s (Published id op q)), c') /\
             Rel c' (snd (spec_step s (Published id op q))).
Proof.
  intros [Ho Hi] Hc. unfold engine_step, updateStatePublishApi.
  destruct (qos_eq_dec q Q0) as [->|Hq].
  { destruct op; cbn [rbind spec_step fst snd]; exists c; (split; [reflexivity|split; assumption]). }
  assert (Hqb : qos_beq q Q0 = false) by (destruct q; [congruence|reflexivity|reflexivity]).
  destruct op.
  - (* send *)
    assert (Es : spec_step s (Published id OpSend q) =
      if id =? 0 then ((BadParameter, None), s) else
      match lookup (sent s) id with
      | None => ((BadParameter, None), s)
      | Some f =>
          if negb (qos_beq (f_qos f) q) then ((BadParameter, None), s)
          else
            let next := match q with Q1 => PubAckPending | _ => PubRecPending end in
            match f_st f with
            | PublishSend =>
                ((Success, Some next),
                 mkSession (cap_out s) (spec_set (sent s) id next) (cap_in s) (recvd s))
            | PubAckPending | PubRecPending => ((Success, Some next), s)
            | _ => ((IllegalState, None), s)
            end
      end) by (destruct q; congruence || reflexivity).
    rewrite Es. clear Es Hc.
    destruct (id =? 0) eqn:Eid.
    { destruct q; [congruence| |]; (cbn [rbind fst snd]; exists c; split; [reflexivity|split; assumption]). }
    unfold findInRecord. rewrite Eid. cbn [negb rassert rbind].
    pose proof (find_spec _ _ _ _ id Ho ltac:(lia)) as HF.
    destruct (find_loop (arr (outRecs c)) 0 id) as [[i r]|].
    2:{ rewrite HF. destruct q; [congruence| |]; (cbn [rbind fst snd]; exists c; split; [reflexivity|split; assumption]). }
    destruct HF as (p & t & E1 & E2 & E3 & E4 & E5 & E6 & E7 & E8 & E9).
    rewrite E8. cbn [to_flight f_qos f_st].
    destruct (qos_beq (rqos r) q) eqn:Erq; cbn [negb].
    2:{ destruct q; [congruence| |]; (cbn [rbind fst snd]; exists c; split; [reflexivity|split; assumption]). }
    apply internal_qos_dec_bl in Erq.
    pose proof Ho as [H1 H2 H3 H4 H5].
    assert (Hupd : forall new, ok_sent (F id q new) ->
      Rel (mkRecs (set_arr (outRecs c) (p ++ mkRec (rid r) (rqos r) new :: t)) (inRecs c))
          (mkSession (cap_out s) (spec_set (sent s) id new) (cap_in s) (recvd s))).
    { intros new Hnew. split; [|exact Hi]. cbn [outRecs cap_out sent].
      eapply RelArr_set; eauto.
      - rewrite E1, !app_length. reflexivity.
      - rewrite E1 in H3. apply slots_ok_app in H3. destruct H3 as [Ha Hb].
        apply slots_ok_app. split; auto. inversion Hb; subst. constructor; auto.
        intros Hz. cbn in Hz. lia.
      - rewrite abs_mid by exact E4. rewrite E5.
        rewrite spec_set_mid; auto. cbn [to_flight f_qos rid rqos rst]. now rewrite E3.
      - now rewrite ids_set.
      - rewrite E5. rewrite spec_set_mid; auto. rewrite E5 in H5.
        apply Forall_app in H5. destruct H5 as [Ha Hb]. inversion Hb; subst.
        apply Forall_app. split; auto. }
    unfold updateStatePublish. rewrite Eid, Hqb. cbn [negb andb rassert].
    destruct E9 as [_ E9]. cbn [to_flight f_qos f_st] in E9. rewrite Erq in E9.
    destruct q; [congruence| |]; destruct (rst r) eqn:Er; try contradiction;
      cbn [calculateStatePublish stateop_beq validateTransitionPublish pstate_beq rbind fst snd
           status_beq];
      try (exists c; split; [reflexivity|split; assumption]);
      rewrite E1, E2, updateRecord_set; cbn [rbind fst snd status_beq set_out];
      (eexists; split; [reflexivity|]; apply Hupd; split; [cbn; lia|cbn; auto]).
  - (* receive *)
    assert (Es : spec_step s (Published id OpReceive q) =
      if id =? 0 then ((BadParameter, None), s) else
      let next := match q with Q1 => PubAckSend | _ => PubRecSend end in
      let '(st, l) := spec_add (cap_in s) (recvd s) id q next in
      ((st, if status_beq st Success then Some next else None),
       mkSession (cap_out s) (sent s) (cap_in s) l)) by (destruct q; congruence || reflexivity).
    rewrite Es. clear Es. cbn zeta.
    destruct (id =? 0) eqn:Eid.
    { destruct q; [congruence| |]; (cbn [rbind fst snd]; exists c; split; [reflexivity|split; assumption]). }
    set (next := match q with Q1 => PubAckSend | _ => PubRecSend end).
    assert (Hn : cap_in s <> 0%nat) by (destruct q; cbn in Hc; congruence || exact Hc).
    pose proof Hi as [H1 H2 H3 H4 H5].
    destruct (addRecord_spec (arr (inRecs c)) id q next H3) as (l' & E & A & S & L).
    { eapply nonempty_len; eauto. } { lia. } { exact Hq. }
    rewrite H1, H2 in *.
    assert (Hok : ok_recvd (F id q next)).
    { split; [cbn; lia|]. unfold next. destruct q; cbn; congruence || auto. }
    destruct (spec_add_ok ok_recvd (cap_in s) (recvd s) id q next H4 H5 Hok) as [HN HO].
    destruct (spec_add (cap_in s) (recvd s) id q next) as [st l2] eqn:Es.
    cbn [fst snd] in *.
    assert (Ecalc : calculateStatePublish OpReceive q = next) by (destruct q; reflexivity || congruence).
    assert (Eu : updateStatePublish c None id OpReceive q StateNull next = Ok (st, set_in c l')).
    { unfold updateStatePublish. rewrite Eid, Hqb. cbn [negb andb rassert].
      replace (validateTransitionPublish StateNull next OpReceive q) with true
        by (unfold next; destruct q; reflexivity).
      rewrite E. reflexivity. }
    exists (set_in c l'). split.
    + rewrite Ecalc, Eu. destruct q; [congruence| |]; reflexivity.
    + split; cbn [set_in outRecs inRecs cap_out sent cap_in recvd]; [exact Ho|].
      eapply RelArr_set; eauto; congruence.
Qed.

Lemma engine_cancel c s id :
  Rel c s -> call_ok (cap_out s) (cap_in s) (Cancel id) ->
  exists c', engine_step c (CRemove id) = Ok (fst (spec_step s (Cancel id)), c') /\
             Rel c' (snd (spec_step s (Cancel id))).
Proof.
  intros [Ho Hi] Hc. cbn [call_ok] in Hc. unfold engine_step, removeStateRecord, spec_step.
  pose proof (find_spec _ _ _ _ id Ho Hc) as HF.
  destruct (outRecs c) as [l|] eqn:El.
  2:{ cbn [arr find_loop] in HF. rewrite HF. cbn [rbind fst snd]. exists c.
      split; [reflexivity|]. split; [now rewrite El|assumption]. }
  cbn [arr] in HF. unfold findInRecord. replace (id =? 0) with false by lia.
  cbn [negb rassert rbind].
  destruct (find_loop l 0 id) as [[i r]|].
  2:{ rewrite HF. cbn [rbind fst snd]. exists c.
      split; [reflexivity|]. split; [now rewrite El|assumption]. }
  destruct HF as (p & t & E1 & E2 & E3 & E4 & E5 & E6 & E7 & E8 & [_ E9]).
  rewrite E8. cbn [to_flight f_qos f_st] in E9.
  replace (pstate_beq (rst r) StateNull) with false
    by (destruct (rqos r), (rst r); cbn in E9; tauto || reflexivity).
  replace (negb (qos_beq (rqos r) Q1) && negb (qos_beq (rqos r) Q2)) with false
    by (destruct (rqos r), (rst r); cbn in E9; tauto || reflexivity).
  rewrite E1, E2, updateRecord_delete. cbn [rbind fst snd].
  eexists. split; [reflexivity|]. split; [|exact Hi].
  cbn [set_out outRecs cap_out sent]. rewrite El.
  pose proof Ho as [H1 H2 H3 H4 H5]. cbn [arr] in *.
  apply RelArr_set with (l := sent s).
  - assumption.
  - cbn [arr]. rewrite E1, !app_length. reflexivity.
  - rewrite E1 in H3. apply slots_ok_app in H3. destruct H3 as [Ha Hb].
    apply slots_ok_app. split; auto. inversion Hb; subst. constructor; auto. intros _; reflexivity.
  - rewrite abs_mid_dead by reflexivity. rewrite E5, spec_drop_mid; auto.
  - now apply NoDup_ids_drop.
  - now apply Forall_drop.
Qed.

Section AckRefine.
  Variable ok : flight -> Prop.
  Variable table : qos -> pstate -> acktype -> stateop -> action.
  (** the code's transition functions agree with a table on well-formed flights *)
  Definition agree (t : acktype) (op : stateop) : Prop := forall q s,
    (forall id, id <> 0 -> ok (F id q s) ->
     let new := calculateStateAck t op q in
     match table q s t op with
     | Goto n => validateTransitionAck s new = true /\ pstate_beq s new = false /\ new = n /\
                 n <> PublishDone /\ n <> PubRelSend /\ ok (F id q n)
     | GotoBack n => validateTransitionAck s new = true /\ pstate_beq s new = false /\ new = n /\
                 n = PubRelSend /\ q = Q2 /\ ok (F id q n)
     | Stay => validateTransitionAck s new = true /\ new = s
     | Finish => validateTransitionAck s new = true /\ pstate_beq s new = false /\ new = PublishDone
     | Refuse => validateTransitionAck s new = false
     end).
  Lemma ack_refine o cap l id t op :
    (forall f, ok f -> f_id f <> 0) -> agree t op -> RelArr ok o cap l -> id <> 0 ->
    match find_loop (arr o) 0 id with
    | None => lookup l id = None
    | Some (i, r) =>
        exists f, lookup l id = Some f /\
        let new := calculateStateAck t op (rqos r) in
        let '(st, ns, l2) := apply_action l f (table (f_qos f) (f_st f) t op) in
        exists l', updateStateAck (arr o) i id (rst r) new = Ok (st, l') /\
          ns = (if status_beq st Success then Some new else None) /\
          RelArr ok (set_arr o l') cap l2
    end.
  Proof.
    intros Hid0 Hag HR Hid. pose proof (find_spec _ _ _ _ id HR Hid) as HF.
    destruct (find_loop (arr o) 0 id) as [[i r]|]; [|exact HF].
    destruct HF as (p & t0 & E1 & E2 & E3 & E4 & E5 & E6 & E7 & E8 & E9).
    exists (to_flight r). split; [exact E8|].
    cbn zeta. cbn [to_flight f_qos f_st].
    pose proof (Hag (rqos r) (rst r) id Hid) as HA.
    assert (Htf : to_flight r = F id (rqos r) (rst r)) by (unfold to_flight; congruence).
    rewrite <- Htf in HA. specialize (HA E9). cbn zeta in HA.
    pose proof HR as [H1 H2 H3 H4 H5].
    set (new := calculateStateAck t op (rqos r)) in *.
    assert (Hsplit : slots_ok p /\ slots_ok t0).
    { rewrite E1 in H3. apply slots_ok_app in H3. destruct H3 as [Ha Hb].
      inversion Hb; subst. auto. }
    assert (Hok2 : Forall ok (abs p) /\ Forall ok (abs t0)).
    { rewrite E5 in H5. apply Forall_app in H5. destruct H5 as [Ha Hb]. inversion Hb; auto. }
    assert (Hdel : RelArr ok (set_arr o (p ++ empty_rec :: t0)) cap (spec_drop l id)).
    { apply RelArr_set with (l := l); auto.
      - rewrite E1, !app_length. reflexivity.
      - apply slots_ok_app. split; [tauto|]. constructor; [intros _; reflexivity|tauto].
      - rewrite abs_mid_dead by reflexivity. rewrite E5, spec_drop_mid; auto.
      - now apply NoDup_ids_drop.
      - now apply Forall_drop. }
    destruct (table (rqos r) (rst r) t op) as [n|n| | |] eqn:ET; cbn [apply_action to_flight f_id].
    - (* Goto *)
      destruct HA as (V & Ne & En & N1 & N2 & On).
      exists (p ++ mkRec (rid r) (rqos r) new :: t0).
      unfold updateStateAck. rewrite V, Ne.
      assert (Hd : pstate_beq new PublishDone || pstate_beq new PubRelSend = false).
      { rewrite En. destruct n; congruence || reflexivity. }
      rewrite Hd. rewrite E1, E2, updateRecord_set. cbn [rbind].
      replace (pstate_beq new PubRelSend) with false by (rewrite En; destruct n; congruence || reflexivity).
      split; [reflexivity|]. split; [cbn [status_beq]; congruence|].
      rewrite E3. apply RelArr_set with (l := l); auto.
      + rewrite E1, !app_length. reflexivity.
      + apply slots_ok_app. split; [tauto|]. constructor; [intros Hz; cbn in Hz; congruence|tauto].
      + rewrite abs_mid; [|unfold live; cbn; lia]. rewrite E5, spec_set_mid; auto. cbn [to_flight rid rqos rst f_qos].
        now rewrite <- En.
      + now rewrite ids_set.
      + rewrite E5, spec_set_mid; auto. cbn [f_qos to_flight]. apply Forall_app. split; [tauto|].
        constructor; [exact On|tauto].
    - (* GotoBack *)
      destruct HA as (V & Ne & En & N1 & Eq & On). rewrite N1 in *.
      unfold updateStateAck. rewrite V, Ne.
      rewrite En. cbn [pstate_beq orb]. rewrite E1, E2, updateRecord_delete. cbn [rbind].
      pose proof Hdel as [D1 D2 D3 D4 D5].
      assert (Hlen : length (p ++ empty_rec :: t0) = length (arr o)).
      { rewrite E1, !app_length. reflexivity. }
      rewrite arr_set_arr in D1, D2, D3 by exact Hlen.
      destruct (addRecord_spec (p ++ empty_rec :: t0) id Q2 PubRelSend D3) as (l' & EA & AA & SA & LA).
      { destruct p; discriminate. } { exact Hid. } { discriminate. }
      assert (Hadd : spec_add (length (p ++ empty_rec :: t0)) (abs (p ++ empty_rec :: t0)) id Q2 PubRelSend
                     = (Success, spec_drop l id ++ [F id Q2 PubRelSend])).
      { unfold spec_add. rewrite D1.
        assert (Hni : in_flight (spec_drop l id) id = false).
        { destruct (in_flight (spec_drop l id) id) eqn:Ei; [|reflexivity].
          apply in_flight_iff in Ei. apply In_ids_drop in Ei. tauto. }
        rewrite Hni.
        replace (length (spec_drop l id) <? length (p ++ empty_rec :: t0))%nat with true; [reflexivity|].
        symmetry. apply Nat.ltb_lt.
        rewrite E5, spec_drop_mid; auto. rewrite !app_length. cbn [length].
        pose proof (abs_length_le p). pose proof (abs_length_le t0). lia. }
      rewrite Hadd in EA, AA. cbn [fst snd] in *.
      exists l'. rewrite EA. split; [reflexivity|]. split; [cbn [status_beq]; congruence|].
      rewrite E3. apply RelArr_set with (l := l); auto.
      + congruence.
      + rewrite AA. cbn [to_flight f_qos]. now rewrite Eq.
      + rewrite ids_app. cbn [ids map f_id]. apply NoDup_Add with (a := id) (l := ids (spec_drop l id)).
        * rewrite <- (app_nil_r (ids (spec_drop l id))) at 1. apply Add_app.
        * split; auto. intros Hc. apply In_ids_drop in Hc. tauto.
      + apply Forall_app. split; [auto|]. constructor; auto.
    - (* Stay *)
      destruct HA as (V & En). exists (arr o). unfold updateStateAck. rewrite V, En.
      replace (pstate_beq (rst r) (rst r)) with true by (destruct (rst r); reflexivity).
      split; [reflexivity|]. split; [reflexivity|].
      apply RelArr_set with (l := l); auto.
    - (* Finish *)
      destruct HA as (V & Ne & En). exists (p ++ empty_rec :: t0).
      unfold updateStateAck. rewrite V, Ne, En. cbn [pstate_beq orb].
      rewrite E1, E2, updateRecord_delete. cbn [rbind].
      split; [reflexivity|]. split; [reflexivity|]. rewrite E3. exact Hdel.
    - (* Refuse *)
      exists (arr o). unfold updateStateAck. rewrite HA.
      split; [reflexivity|]. split; [reflexivity|].
      apply RelArr_set with (l := l); auto.
  Qed.
End AckRefine.

Lemma agree_sender t op : concerns_sent t op = true -> agree ok_sent sender_table t op.
Proof.
  intros Hc q s id Hid [_ Hok]. cbn [f_qos f_st] in Hok.
  destruct t, op; try discriminate; destruct q, s; try contradiction; cbn; unfold ok_sent; cbn;
    repeat split; auto; discriminate.
Qed.
Lemma agree_receiver t op : concerns_sent t op = false -> agree ok_recvd receiver_table t op.
Proof.
  intros Hc q s id Hid [_ Hok]. cbn [f_qos f_st] in Hok.
  destruct t, op; try discriminate; destruct q, s; try contradiction; cbn; unfold ok_recvd; cbn;
    repeat split; auto; discriminate.
Qed.

Lemma concerns_sent_eq t op : isPublishOutgoing t op = concerns_sent t op.
Proof. destruct t, op; reflexivity. Qed.

Lemma engine_acked c s id t op :
  Rel c s ->
  exists c', engine_step c (CUpdateAck id t op) = Ok (fst (spec_step s (Acked id t op)), c') /\
             Rel c' (snd (spec_step s (Acked id t op))).
Proof.
  intros [Ho Hi]. unfold engine_step, updateStateAckApi, spec_step.
  destruct (id =? 0) eqn:Eid; [cbn [rbind fst snd]; exists c; split; [reflexivity|split; assumption]|].
  rewrite concerns_sent_eq. unfold findInRecord. rewrite Eid. cbn [negb rassert rbind].
  destruct (concerns_sent t op) eqn:Ec.
  - pose proof (ack_refine ok_sent sender_table _ _ _ id t op
                  ltac:(intros f Hf; apply Hf) (agree_sender _ _ Ec) Ho ltac:(lia)) as HA.
    destruct (find_loop (arr (outRecs c)) 0 id) as [[i r]|].
    + destruct HA as (f & Hl & HA). rewrite Hl. cbn zeta in HA.
      destruct (apply_action (sent s) f (sender_table (f_qos f) (f_st f) t op)) as [[st ns] l2].
      destruct HA as (l' & E1 & E2 & E3). rewrite E1. cbn [rbind fst snd].
      eexists. split; [rewrite E2; reflexivity|]. split; [exact E3|exact Hi].
    + rewrite HA. cbn [rbind fst snd]. exists c. split; [reflexivity|split; assumption].
  - pose proof (ack_refine ok_recvd receiver_table _ _ _ id t op
                  ltac:(intros f Hf; apply Hf) (agree_receiver _ _ Ec) Hi ltac:(lia)) as HA.
    destruct (find_loop (arr (inRecs c)) 0 id) as [[i r]|].
    + destruct HA as (f & Hl & HA). rewrite Hl. cbn zeta in HA.
      destruct (apply_action (recvd s) f (receiver_table (f_qos f) (f_st f) t op)) as [[st ns] l2].
      destruct HA as (l' & E1 & E2 & E3). rewrite E1. cbn [rbind fst snd].
      eexists. split; [rewrite E2; reflexivity|]. split; [exact Ho|exact E3].
    + rewrite HA. cbn [rbind fst snd]. exists c. split; [reflexivity|split; assumption].
Qed.

Lemma RelArr_reset ok o cap l : RelArr ok o cap l ->
  RelArr ok (set_arr o (repeat empty_rec (length (arr o)))) cap [].
Proof.
  intros H. apply RelArr_set with (l := l); auto.
  - apply repeat_length.
  - apply slots_ok_repeat.
  - apply abs_repeat.
  - constructor.
Qed.

Lemma engine_reset c s : Rel c s -> Rel (resetRecs c) (mkSession (cap_out s) [] (cap_in s) []).
Proof. intros [Ho Hi]. split; eapply RelArr_reset; eauto. Qed.

Lemma engine_step_refines c s o :
  Rel c s -> call_ok (cap_out s) (cap_in s) o ->
  exists c', engine_step c (to_call o) = Ok (fst (spec_step s o), c') /\ Rel c' (snd (spec_step s o)).
Proof.
  intros HR Hc. destruct o; cbn [to_call].
  - now apply engine_reserve.
  - now apply engine_published.
  - now apply engine_acked.
  - now apply engine_cancel.
  - exists (resetRecs c). split; [reflexivity|]. now apply engine_reset.
Qed.

Lemma spec_step_caps s o : cap_out (snd (spec_step s o)) = cap_out s /\ cap_in (snd (spec_step s o)) = cap_in s.
Proof.
  destruct o as [id q|id op q|id t op|id|]; unfold spec_step; [| | | |now split].
  - destruct (qos_beq q Q0), (id =? 0); auto. destruct (spec_add _ _ _ _ _); auto.
  - destruct q, op; auto; destruct (id =? 0); auto; try (destruct (lookup (sent s) id) as [f|]; auto;
      destruct (negb (qos_beq (f_qos f) _)); auto; destruct (f_st f); auto);
      destruct (spec_add _ _ _ _ _); auto.
  - destruct (id =? 0), (concerns_sent t op); auto.
    + destruct (lookup _ id); auto. destruct (apply_action _ _ _) as [[? ?] ?]; auto.
    + destruct (lookup _ id); auto. destruct (apply_action _ _ _) as [[? ?] ?]; auto.
  - destruct (lookup _ id); auto.
Qed.

Lemma engine_run_refines ops : forall c s,
  Rel c s -> Forall (call_ok (cap_out s) (cap_in s)) ops ->
  exists c', engine_run c (map to_call ops) = Ok (fst (spec_run s ops), c') /\
             Rel c' (snd (spec_run s ops)).
Proof.
  induction ops as [|o ops IH]; intros c s HR Hc.
  - exists c. split; [reflexivity|exact HR].
  - inversion Hc as [|? ? Hc1 Hc2]; subst. cbn [map engine_run spec_run].
    destruct (engine_step_refines _ _ _ HR Hc1) as (c1 & E1 & R1).
    rewrite E1. destruct (spec_step_caps s o) as [K1 K2].
    destruct (spec_step s o) as [r s1]. cbn [fst snd rbind] in *.
    destruct (IH c1 s1 R1) as (c2 & E2 & R2). { now rewrite K1, K2. }
    rewrite E2. destruct (spec_run s1 ops) as [rs s2]. cbn [fst snd rbind] in *.
    exists c2. auto.
Qed.

Lemma Rel_fresh n m : Rel (fresh_recs n m) (fresh_session n m).
Proof.
  split; constructor; cbn [fresh_recs fresh_session outRecs inRecs cap_out cap_in sent recvd ids map];
    try constructor; try (destruct n; reflexivity); try (destruct m; reflexivity).
  - destruct n; cbn [arr]; [reflexivity|apply abs_repeat].
  - destruct n; cbn [arr]; [reflexivity|apply repeat_length].
  - destruct n; cbn [arr]; [constructor|apply slots_ok_repeat].
  - destruct m; cbn [arr]; [reflexivity|apply abs_repeat].
  - destruct m; cbn [arr]; [reflexivity|apply repeat_length].
  - destruct m; cbn [arr]; [constructor|apply slots_ok_repeat].
Qed.

(** ** Reachable engine states *)
Lemma spec_run_caps ops : forall s,
  cap_out (snd (spec_run s ops)) = cap_out s /\ cap_in (snd (spec_run s ops)) = cap_in s.
Proof.
  induction ops as [|o ops IH]; intros s; cbn [spec_run]; [auto|].
  destruct (spec_step_caps s o) as [K1 K2].
  destruct (spec_step s o) as [r s1]. cbn [snd] in *.
  specialize (IH s1). destruct (spec_run s1 ops) as [rs s2]. cbn [snd] in *.
  destruct IH. split; congruence.
Qed.

Lemma Reach_rel n m c : Reach n m c -> exists s, Rel c s /\ cap_out s = n /\ cap_in s = m.
Proof.
  intros (ops & outs & Hc & E).
  destruct (engine_run_refines ops _ _ (Rel_fresh n m) Hc) as (c' & E' & R').
  rewrite E in E'. inversion E'; subst. eexists. split; [exact R'|].
  apply (spec_run_caps ops (fresh_session n m)).
Qed.

(** ** Retransmission queues *)
Definition is_pub (f : flight) : bool :=
  match f_st f with PublishSend | PubAckPending | PubRecPending => true | _ => false end.
Definition is_rel (f : flight) : bool :=
  match f_st f with PubRelSend | PubCompPending => true | _ => false end.
Definition pubq (l : list flight) : list Z := ids (filter is_pub l).
Definition relq (l : list flight) : list Z := ids (filter is_rel l).

Definition dropz (id : Z) (q : list Z) : list Z := filter (fun x => negb (x =? id)) q.

Lemma queue_drop (p : flight -> bool) l id :
  ids (filter p (spec_drop l id)) = dropz id (ids (filter p l)).
Proof.
  unfold spec_drop, ids, dropz. induction l as [|f l IH]; cbn [filter map]; [reflexivity|].
  destruct (f_id f =? id) eqn:E; cbn [negb filter]; destruct (p f); cbn [map filter]; rewrite ?E; cbn [negb]; auto.
  f_equal. exact IH.
Qed.
Lemma dropz_notin id q : ~ In id q -> dropz id q = q.
Proof.
  unfold dropz. induction q as [|x q IH]; intros H; cbn [filter]; [reflexivity|].
  destruct (x =? id) eqn:E; [exfalso; apply H; left; lia|]. cbn [negb]. f_equal. apply IH.
  intros Hc; apply H; now right.
Qed.
Lemma dropz_comm_notin (p : flight -> bool) l f id :
  NoDup (ids l) -> lookup l id = Some f -> p f = false -> ~ In id (ids (filter p l)).
Proof.
  unfold lookup, ids. induction l as [|x l IH]; cbn [find map filter]; intros HN HL Hp; [auto|].
  inversion HN as [|? ? N1 N2]; subst.
  destruct (f_id x =? id) eqn:E.
  - inversion HL; subst. rewrite Hp. intros Hc. apply N1.
    apply in_map_iff in Hc. destruct Hc as (y & Ey & Hy). apply filter_In in Hy.
    apply in_map_iff. exists y. split; [lia|tauto].
  - destruct (p x); [|auto]. cbn [map]. intros [Hc|Hc]; [lia|]. now apply IH in Hc.
Qed.
Lemma queue_set (p : flight -> bool) l id st f :
  NoDup (ids l) -> lookup l id = Some f -> p (F id (f_qos f) st) = p f ->
  ids (filter p (spec_set l id st)) = ids (filter p l).
Proof.
  unfold lookup, ids, spec_set. induction l as [|x l IH]; cbn [find map filter]; intros HN HL Hp; [discriminate|].
  inversion HN as [|? ? N1 N2]; subst.
  destruct (f_id x =? id) eqn:E.
  - injection HL as ->. assert (Eid : f_id f = id) by lia.
    assert (E2 : map (fun f0 : flight => if f_id f0 =? id then F (f_id f0) (f_qos f0) st else f0) l = l).
    { apply (spec_set_notin l id st). rewrite <- Eid. exact N1. }
    rewrite E2, Eid, Hp. destruct (p f); cbn [map f_id]; [f_equal; lia|reflexivity].
  - destruct (p x); cbn [map]; [f_equal|]; now apply IH.
Qed.

Lemma lookup_id l id f : lookup l id = Some f -> f_id f = id.
Proof. intros H. apply find_some in H. destruct H as [_ H]. lia. Qed.
Lemma lookup_In l id f : lookup l id = Some f -> In f l.
Proof. intros H. apply find_some in H. tauto. Qed.

Definition good (s : session) : Prop :=
  NoDup (ids (sent s)) /\ Forall ok_sent (sent s).

Lemma Rel_good c s : Rel c s -> good s.
Proof. intros [[] []]. split; assumption. Qed.

Lemma queues_app_step x h q1 q2 :
  publish_queue (x :: h) q1 = publish_queue h (publish_queue [x] q1) /\
  pubrel_queue (x :: h) q2 = pubrel_queue h (pubrel_queue [x] q2).
Proof.
  destruct x as [o [st ns]]. split.
  - destruct o as [id q|id op q|id t op|id|]; try reflexivity;
      destruct st; try reflexivity; try (destruct q; reflexivity); destruct t, op; reflexivity.
  - destruct o as [id q|id op q|id t op|id|]; try reflexivity;
      destruct st; try reflexivity; destruct t, op; reflexivity.
Qed.

Lemma spec_add_cases cap l id q st : 
  (exists e, e <> Success /\ spec_add cap l id q st = (e, l)) \/
  spec_add cap l id q st = (Success, l ++ [F id q st]).
Proof.
  unfold spec_add. destruct (in_flight l id); [left; exists StateCollision; split; [discriminate|reflexivity]|].
  destruct (length l <? cap)%nat; [now right|left; exists NoMemory; split; [discriminate|reflexivity]].
Qed.

Lemma queue_step s o : good s ->
  let r := fst (spec_step s o) in let s' := snd (spec_step s o) in
  pubq (sent s') = publish_queue [(o, r)] (pubq (sent s)) /\
  relq (sent s') = pubrel_queue [(o, r)] (relq (sent s)).
Proof.
  intros [HN HO]. cbn zeta.
  destruct o as [id q|id op q|id t op|id|].
  - cbn [spec_step]. destruct (qos_beq q Q0) eqn:Eq.
    { cbn [fst snd]. destruct q; [|discriminate|discriminate]. split; reflexivity. }
    destruct (id =? 0). { cbn [fst snd]. split; destruct q; reflexivity. }
    destruct (spec_add_cases (cap_out s) (sent s) id q PublishSend) as [(e & He & E)|E]; rewrite E;
      cbn [fst snd sent].
    + split; [|reflexivity]. destruct q; [discriminate| |]; destruct e; congruence || reflexivity.
    + unfold pubq, relq. rewrite !filter_app, !ids_app. cbn [filter is_pub is_rel f_st ids map f_id].
      rewrite app_nil_r. split; [|reflexivity]. destruct q; [discriminate| |]; reflexivity.
  - assert (Hq : forall r q1 q2, publish_queue [(Published id op q, r)] q1 = q1 /\
                             pubrel_queue [(Published id op q, r)] q2 = q2) by (intros; split; reflexivity).
    destruct (Hq (fst (spec_step s (Published id op q))) (pubq (sent s)) (relq (sent s))) as [-> ->].
    assert (Hsame : forall st f, lookup (sent s) id = Some f -> f_st f = PublishSend ->
              (st = PubAckPending \/ st = PubRecPending) ->
              pubq (spec_set (sent s) id st) = pubq (sent s) /\
              relq (spec_set (sent s) id st) = relq (sent s)).
    { intros st f Hl Hf Hst. split; eapply queue_set; eauto; unfold is_pub, is_rel; cbn [f_st];
        rewrite Hf; destruct Hst; subst; reflexivity. }
    destruct q, op; cbn [spec_step]; auto; destruct (id =? 0); auto;
      try (destruct (lookup (sent s) id) as [f|] eqn:El; [|auto];
           destruct (negb (qos_beq (f_qos f) _)); auto; destruct (f_st f) eqn:Ef; cbn [snd sent]; auto;
           eapply Hsame; eauto);
      destruct (spec_add _ _ _ _ _); auto.
  - cbn [spec_step]. destruct (id =? 0).
    { cbn [fst snd]. split; destruct t, op; reflexivity. }
    destruct (concerns_sent t op) eqn:Ec.
    2:{ destruct (lookup (recvd s) id) as [f|] eqn:El.
        - destruct (apply_action _ _ _) as [[st ns] l2]. cbn [fst snd sent].
          destruct t, op; try discriminate; split; reflexivity.
        - cbn [fst snd sent]. destruct t, op; try discriminate; split; reflexivity. }
    destruct (lookup (sent s) id) as [f|] eqn:El.
    2:{ cbn [fst snd]. split; destruct t, op; reflexivity. }
    pose proof (lookup_id _ _ _ El) as Eid.
    assert (Hok : ok_sent f) by (rewrite Forall_forall in HO; apply HO; eapply lookup_In; eauto).
    destruct Hok as [_ Hok]. unfold pubq, relq.
    assert (Hno : forall p : flight -> bool, p f = false -> ~ In id (ids (filter p (sent s)))).
    { intros p Hp. eapply dropz_comm_notin; eauto. }
    destruct (f_qos f) eqn:Eq; destruct (f_st f) eqn:Es; try contradiction;
      destruct t, op; try discriminate; cbn [sender_table apply_action fst snd sent]; rewrite ?Eid;
      try (split; reflexivity);
      try (rewrite !queue_drop; split; cbn [publish_queue pubrel_queue]; fold (dropz id (ids (filter is_pub (sent s))));
           fold (dropz id (ids (filter is_rel (sent s)))); try reflexivity; apply dropz_notin, Hno;
           unfold is_pub, is_rel; rewrite Es; reflexivity).
    + (* PUBREL sent first time *)
      split; (eapply queue_set; eauto); unfold is_pub, is_rel; cbn [f_st]; rewrite Es; reflexivity.
    + (* PUBREC *)
      rewrite !filter_app, !ids_app, !queue_drop. cbn [filter is_pub is_rel f_st ids map f_id publish_queue pubrel_queue].
      fold (dropz id (ids (filter is_pub (sent s)))). rewrite app_nil_r. split; [reflexivity|].
      f_equal. apply dropz_notin, Hno. unfold is_rel. now rewrite Es.
  - cbn [spec_step]. destruct (lookup (sent s) id) as [f|]; cbn [fst snd sent].
    + unfold pubq, relq. rewrite !queue_drop. split; reflexivity.
    + split; reflexivity.
  - split; reflexivity.
Qed.

Lemma spec_run_queues ops : forall c s, Rel c s -> Forall (call_ok (cap_out s) (cap_in s)) ops ->
  pubq (sent (snd (spec_run s ops))) = publish_queue (combine ops (fst (spec_run s ops))) (pubq (sent s)) /\
  relq (sent (snd (spec_run s ops))) = pubrel_queue (combine ops (fst (spec_run s ops))) (relq (sent s)).
Proof.
  induction ops as [|o ops IH]; intros c s HR Hc; [split; reflexivity|].
  inversion Hc as [|? ? Hc1 Hc2]; subst.
  destruct (engine_step_refines _ _ _ HR Hc1) as (c1 & _ & R1).
  destruct (queue_step s o (Rel_good _ _ HR)) as [Q1 Q2].
  destruct (spec_step_caps s o) as [K1 K2].
  cbn [spec_run]. destruct (spec_step s o) as [r s1]. cbn [fst snd] in *.
  destruct (IH _ _ R1 ltac:(now rewrite K1, K2)) as [I1 I2].
  destruct (spec_run s1 ops) as [rs s2]. cbn [fst snd combine] in *.
  destruct (queues_app_step (o, r) (combine ops rs) (pubq (sent s)) (relq (sent s))) as [-> ->].
  now rewrite <- Q1, <- Q2.
Qed.

Lemma skipn_S_cons {A} (l : list A) : forall d x t, skipn d l = x :: t -> skipn (S d) l = t.
Proof.
  induction l as [|y l IH]; intros [|d] x t H; cbn [skipn] in *; try discriminate.
  - now inversion H.
  - now apply IH in H.
Qed.

(** Walking a selection visits exactly the matching slots, in order. *)
Lemma select_walk l mask :
  (forall r, In r l -> in_mask mask (rst r) = true -> rid r <> 0) ->
  forall k c, k = (length l - c)%nat ->
  Walk (stateSelect l mask) c (map rid (filter (fun r => in_mask mask (rst r)) (skipn c l))).
Proof.
  intros Hm. induction k as [k IHk] using (well_founded_induction Wf_nat.lt_wf). intros c Hk.
  assert (Hsel : forall t d, skipn d l = t -> (c <= d)%nat ->
    (forall d', (c <= d' < d)%nat -> True) ->
    select_loop t mask d = stateSelect l mask c ->
    (filter (fun r => in_mask mask (rst r)) t = filter (fun r => in_mask mask (rst r)) (skipn c l)) ->
    Walk (stateSelect l mask) c (map rid (filter (fun r => in_mask mask (rst r)) t))).
  { induction t as [|r t IHt]; intros d Hd Hcd _ Hsl Hf.
    - cbn [filter map]. eapply Walk_end. rewrite <- Hsl. reflexivity.
    - assert (Hlt : (d < length l)%nat).
      { destruct (Nat.lt_ge_cases d (length l)); [assumption|]. rewrite skipn_all2 in Hd by lia. discriminate. }
      assert (Hd' : skipn (S d) l = t).
      { now apply skipn_S_cons with (x := r). }
      cbn [select_loop] in Hsl. cbn [filter] in Hf |- *. destruct (in_mask mask (rst r)) eqn:Em.
      + cbn [map]. eapply Walk_step.
        * rewrite <- Hsl. reflexivity.
        * apply Hm; auto. rewrite <- (firstn_skipn d l). apply in_or_app. right. rewrite Hd. now left.
        * rewrite <- Hd'. apply (IHk (length l - S d)%nat); lia.
      + apply (IHt (S d)); auto. }
  apply (Hsel (skipn c l) c); auto.
Qed.

Lemma in_mask_pub l : slots_ok l -> forall r, In r l ->
  in_mask [PublishSend; PubAckPending; PubRecPending] (rst r) = true -> rid r <> 0.
Proof.
  intros H r Hr Hm Hz. unfold slots_ok in H. rewrite Forall_forall in H.
  rewrite (H r Hr Hz) in Hm. discriminate.
Qed.
Lemma in_mask_rel l : slots_ok l -> forall r, In r l ->
  in_mask [PubCompPending; PubRelSend] (rst r) = true -> rid r <> 0.
Proof.
  intros H r Hr Hm Hz. unfold slots_ok in H. rewrite Forall_forall in H.
  rewrite (H r Hr Hz) in Hm. discriminate.
Qed.

Lemma mask_abs l mask (p : flight -> bool) : slots_ok l -> in_mask mask StateNull = false ->
  (forall r, p (to_flight r) = in_mask mask (rst r)) ->
  map rid (filter (fun r => in_mask mask (rst r)) l) = ids (filter p (abs l)).
Proof.
  intros H H0 Hp. unfold abs, ids. induction l as [|r l IH]; [reflexivity|].
  inversion H as [|? ? Hr Hl]; subst. cbn [filter].
  destruct (live r) eqn:E.
  - cbn [map filter]. rewrite Hp. destruct (in_mask mask (rst r)); cbn [map to_flight f_id]; [f_equal|]; auto.
  - assert (r = empty_rec) by (apply Hr; unfold live in E; lia). subst r.
    cbn [rst empty_rec]. rewrite H0. auto.
Qed.

Lemma walk_publish c s : Rel c s -> Walk (publishToResend c) 0 (pubq (sent s)).
Proof.
  intros [[H1 H2 H3 H4 H5] _]. unfold pubq. rewrite <- H1.
  rewrite <- (mask_abs (arr (outRecs c)) [PublishSend; PubAckPending; PubRecPending] is_pub); auto.
  - apply (select_walk (arr (outRecs c)) _ (in_mask_pub _ H3) (length (arr (outRecs c)) - 0) 0 eq_refl).
  - intros r. unfold is_pub. cbn [to_flight f_st]. destruct (rst r); reflexivity.
Qed.
Lemma walk_pubrel c s : Rel c s -> Walk (pubrelToResend c) 0 (relq (sent s)).
Proof.
  intros [[H1 H2 H3 H4 H5] _]. unfold relq. rewrite <- H1.
  rewrite <- (mask_abs (arr (outRecs c)) [PubCompPending; PubRelSend] is_rel); auto.
  - apply (select_walk (arr (outRecs c)) _ (in_mask_rel _ H3) (length (arr (outRecs c)) - 0) 0 eq_refl).
  - intros r. unfold is_rel. cbn [to_flight f_st]. destruct (rst r); reflexivity.
Qed.

Lemma Walk_det next c l1 : Walk next c l1 -> forall l2, Walk next c l2 -> l1 = l2.
Proof.
  induction 1 as [c c' E|c c' id l E Hne HW IH]; intros l2 H2; inversion H2; subst; try congruence.
  rewrite E in H. inversion H; subst. f_equal. now apply IH.
Qed.

Lemma resend_order n m ops :
  Forall (call_ok n m) ops ->
  exists outs c, engine_run (fresh_recs n m) (map to_call ops) = Ok (outs, c) /\
    Walk (publishToResend c) 0 (publish_queue (combine ops outs) []) /\
    Walk (pubrelToResend c) 0 (pubrel_queue (combine ops outs) []).
Proof.
  intros Hc. destruct (engine_run_refines ops _ _ (Rel_fresh n m) Hc) as (c & E & HR).
  destruct (spec_run_queues ops _ _ (Rel_fresh n m) Hc) as [Q1 Q2].
  change (pubq (sent (fresh_session n m))) with (@nil Z) in Q1.
  change (relq (sent (fresh_session n m))) with (@nil Z) in Q2.
  exists (fst (spec_run (fresh_session n m) ops)), c. split; [exact E|].
  rewrite <- Q1, <- Q2. split; [now apply walk_publish|now apply walk_pubrel].
Qed.
