(** The receive functions. *)
From Verif Require Import Base StateModel SerModel CoreModel CoreHarness CoreProofs CoreProofs2.

(** ** store_at *)
Lemma store_at_len buf off bs : 0 <= off -> off + zlen bs <= zlen buf -> zlen (store_at buf off bs) = zlen buf.
Proof.
  intros. unfold store_at. rewrite !zlen_app, zlen_firstn, zlen_skipn. unfold zlen in *. lia.
Qed.
Lemma store_at_nil buf off : 0 <= off <= zlen buf -> store_at buf off [] = buf.
Proof. intros. unfold store_at. cbn [app length]. rewrite Nat.add_0_r. apply firstn_skipn. Qed.
Lemma skipn_app_exact {A} (a b : list A) n : n = length a -> skipn n (a ++ b) = b.
Proof. intros ->. rewrite skipn_app, skipn_all, Nat.sub_diag. reflexivity. Qed.
Lemma firstn_app_exact {A} (a b : list A) n : n = length a -> firstn n (a ++ b) = a.
Proof. intros ->. rewrite firstn_app, firstn_all, Nat.sub_diag. cbn. apply app_nil_r. Qed.
Lemma skipn_skipn' {A} (l : list A) a b : skipn a (skipn b l) = skipn (b + a) l.
Proof. revert l; induction b as [|b IH]; intros l; cbn; auto. destruct l; [now rewrite skipn_nil|]. apply IH. Qed.
Lemma store_at_app buf off a b : 0 <= off -> off + zlen a + zlen b <= zlen buf ->
  store_at (store_at buf off a) (off + zlen a) b = store_at buf off (a ++ b).
Proof.
  intros H0 H1. unfold store_at.
  assert (L : length (firstn (Z.to_nat off) buf) = Z.to_nat off).
  { rewrite firstn_length. unfold zlen in *. lia. }
  replace (Z.to_nat (off + zlen a)) with (Z.to_nat off + length a)%nat by (unfold zlen in *; lia).
  rewrite (app_assoc (firstn _ _) a).
  rewrite (firstn_app_exact (_ ++ a)) by (rewrite app_length; lia).
  rewrite skipn_app. rewrite (skipn_all2 (_ ++ a)) by (rewrite app_length; lia). cbn [app].
  rewrite app_length, L. rewrite skipn_skipn'. rewrite <- !app_assoc. do 3 f_equal. f_equal.
  rewrite app_length. lia.
Qed.
Lemma store_at_prefix buf off bs : 0 <= off -> off + zlen bs <= zlen buf ->
  firstn (Z.to_nat (off + zlen bs)) (store_at buf off bs) = firstn (Z.to_nat off) buf ++ bs.
Proof.
  intros. unfold store_at. rewrite app_assoc. apply firstn_app_exact.
  rewrite app_length, firstn_length. unfold zlen in *. lia.
Qed.
Lemma store_at_0 buf bs : zlen bs <= zlen buf -> firstn (length bs) (store_at buf 0 bs) = bs.
Proof. intros. unfold store_at. cbn. apply firstn_app_exact. reflexivity. Qed.

(** ** recv *)
(** Only received bytes, receive answers and clock readings were consumed. *)
Definition env_recvd (s s' : st) : Prop :=
  exists i a b, s_env s' = env_times (env_recv (s_env s) i a) b.
Lemma env_recvd_refl s : env_recvd s s.
Proof. exists (e_in (s_env s)), (e_recvs (s_env s)), (e_times (s_env s)). destruct s as [c [? ? ? ? ? ? ?]]; reflexivity. Qed.
Lemma env_recvd_trans s1 s2 s3 : env_recvd s1 s2 -> env_recvd s2 s3 -> env_recvd s1 s3.
Proof. intros (i & a & b & E) (i' & a' & b' & E'). exists i', a', b'. rewrite E', E. reflexivity. Qed.

(** The bytes [bs] arrived and were put at offset [off]; [err] tells whether the
    transport reported an error at the end. *)
Definition recvd (off : Z) (bs : list Z) (err : bool) (s s' : st) (t : list ev) : Prop :=
  ins t = bs /\ recv_only t /\ e_in (s_env s) = bs ++ e_in (s_env s') /\ env_recvd s s' /\
  (if err then (exists t0, t = t0 ++ [EInErr] /\ errs t0 = false) /\
               s_ctx s' = transport_broke (set_buf (s_ctx s) (store_at (x_buf (s_ctx s)) off bs))
   else errs t = false /\ s_ctx s' = set_buf (s_ctx s) (store_at (x_buf (s_ctx s)) off bs)).

Lemma recv_into_inv off n s r s' t : recv_into off n s = Ret r s' t ->
  0 <= off /\ 0 <= n /\ off + n <= zlen (x_buf (s_ctx s)) /\
  (r < 0 /\ t = [EInErr] /\ (exists rv, s_env s' = env_recv (s_env s) (e_in (s_env s)) rv /\ exists a, e_recvs (s_env s) = a :: rv) /\ s_ctx s' = s_ctx s \/
   exists bs, r = zlen bs /\ r <= n /\ t = [EIn bs] /\ e_in (s_env s) = bs ++ e_in (s_env s') /\
     (exists rv, s_env s' = env_recv (s_env s) (e_in (s_env s')) rv /\ exists a, e_recvs (s_env s) = a :: rv) /\
     s_ctx s' = set_buf (s_ctx s) (store_at (x_buf (s_ctx s)) off bs)).
Proof.
  unfold recv_into. intro H. mgo H. apply andb_true_iff in As. destruct As as (As & A3).
  apply andb_true_iff in As. destruct As as (A1 & A2).
  split; [lia|]. split; [lia|]. split; [lia|].
  match goal with HT : trecv _ _ = _ |- _ => rename HT into HT; apply trecv_inv in HT end.
  match goal with HT : exists _ _, e_recvs _ = _ /\ _ |- _ => destruct HT as (x & rest & E1 & HT) end.
  destruct H0 as [(Hx & E2 & -> & ->)|(Hx & k & Ek & E2 & -> & ->)].
  - left. injection E2 as -> ->. cbn [app s_ctx s_env]. repeat split; auto; [eauto|].
    rewrite store_at_nil by lia. destruct (s_ctx s); reflexivity.
  - right. set (bs := firstn k (e_in (s_env s))) in *. injection E2 as -> ->. exists bs.
    cbn [app s_ctx s_env env_recv e_in]. repeat split; auto.
    + unfold bs. rewrite zlen_firstn. lia.
    + unfold bs. symmetry. apply firstn_skipn.
    + exists rest. split; eauto.
Qed.
Lemma set_buf_id c : set_buf c (x_buf c) = c. Proof. destruct c; reflexivity. Qed.

Section Recv.
Variable G : cfg.

Lemma recv_into_safe off n s : 0 <= off -> 0 <= n -> off + n <= zlen (x_buf (s_ctx s)) -> safe (recv_into off n) s.
Proof.
  intros. unfold recv_into. apply safe_bind; [safe1|]. intros c s1 t H2. apply getc_inv in H2. destruct H2 as (-> & -> & ->).
  apply safe_bind; [apply safe_massert; lia|]. intros. apply safe_bind; [safe1|]. intros [] ? ? ?.
  apply safe_bind; [safe1|]. intros. safe1.
Qed.

Lemma recvExact_loop_spec fuel : forall off n total last s r s' t,
  0 <= off -> 0 <= total -> off + n <= zlen (x_buf (s_ctx s)) ->
  recvExact_loop G fuel off n total last s = Ret r s' t ->
  exists bs err, recvd off bs err s s' t /\ zlen bs <= Z.max 0 n /\
    (if err : bool then r < 0 else r = total + zlen bs).
Proof.
  induction fuel as [|fuel IH]; intros off n total last s r s' t Ho Ht Hb H; cbn [recvExact_loop] in H; [mgo H|].
  destruct (0 <? n) eqn:En.
  2: { mgo H. exists [], false. split; [|split; unfold zlen; cbn; lia].
       split; [reflexivity|]. split; [reflexivity|]. split; [reflexivity|]. split; [apply env_recvd_refl|].
       split; [reflexivity|].
       destruct (Z_le_gt_dec off (zlen (x_buf (s_ctx s)))).
       - now rewrite store_at_nil, set_buf_id by lia.
       - unfold store_at. cbn [app length]. rewrite Nat.add_0_r, firstn_skipn. now rewrite set_buf_id. }
  apply bind_inv in H. destruct H as (x & s1 & t1 & t2 & H1 & H & ->).
  apply recv_into_inv in H1. destruct H1 as (_ & _ & _ & [(Hx & -> & (rv & Ee & _) & Ec)|(bs & Hx & Hn & -> & Ei & (rv & Ee & _) & Ec)]).
  - replace (x <? 0) with true in H by lia. mgo H. exists [], true.
    repeat split; auto; try (unfold zlen; cbn; lia).
    + rewrite Ee. reflexivity.
    + exists (e_in (s_env s)), rv, (e_times (s_env s)). cbn. rewrite Ee. destruct (s_env s); reflexivity.
    + exists []. auto.
    + rewrite store_at_nil, set_buf_id by lia. cbn [s_ctx]; now rewrite Ec.
  - pose proof (zlen_nonneg bs). replace (x <? 0) with false in H by lia.
    assert (Hlen : zlen (x_buf (s_ctx s1)) = zlen (x_buf (s_ctx s))).
    { rewrite Ec. cbn [set_buf x_buf]. apply store_at_len; lia. }
    destruct (0 <? x) eqn:Ex.
    + mgo H. apply IH in H; try lia.
      2: { cbn [s_ctx]. rewrite Hlen. lia. }
      destruct H as (bs2 & err & (Q1 & Q2 & Q3 & Q4 & Q5) & Q6 & Q7). cbn [s_ctx s_env e_in env_times] in *.
      exists (bs ++ bs2), err. split; [|split].
      * split; [rewrite !ins_app; cbn [ins flat_map app]; rewrite ?app_nil_r; now rewrite Q1|].
        split; [apply recv_only_app; split; auto; reflexivity|].
        split; [rewrite Ei, Q3; now rewrite app_assoc|].
        split. { eapply env_recvd_trans; [|exact Q4]. exists (e_in (s_env s1)), rv, xr. cbn. rewrite Ee. reflexivity. }
        rewrite Ec in Q5. cbn [set_buf x_buf] in Q5. rewrite store_at_app in Q5 by lia.
        destruct err.
        -- destruct Q5 as ((t0 & -> & ?) & ->). split; [|reflexivity]. exists (EIn bs :: t0). auto.
        -- destruct Q5 as (? & ->). split; auto.
      * rewrite zlen_app. lia.
      * rewrite zlen_app. destruct err; lia.
    + assert (x = 0) by lia. subst x. assert (bs = []) by (destruct bs; auto; unfold zlen in *; cbn in *; lia). subst bs.
      rewrite store_at_nil, set_buf_id in Ec by lia. mgo H.
      assert (Hr : env_recvd s (mkSt (s_ctx s1) (env_times (s_env s1) xr))).
      { exists (e_in (s_env s1)), rv, xr. cbn. rewrite Ee. reflexivity. }
      destruct (g_poll G <=? elapsed (u32 x) last).
      * mgo H. exists [], false. split; [|split; unfold zlen; cbn; lia].
        repeat split; auto. cbn [s_ctx]. now rewrite store_at_nil, set_buf_id by lia.
      * apply IH in H; try lia.
        2: { cbn [s_ctx]. rewrite Hlen. lia. }
        destruct H as (bs2 & err & (Q1 & Q2 & Q3 & Q4 & Q5) & Q6 & Q7). cbn [s_ctx s_env e_in env_times] in *.
        exists bs2, err. split; [|split]; auto.
        split; [exact Q1|]. split; [exact Q2|]. split; [rewrite Ei; exact Q3|].
        split; [eapply env_recvd_trans; eauto|]. rewrite Ec in Q5.
        destruct err.
        -- destruct Q5 as ((tz & -> & ?) & ->). split; [|reflexivity]. exists (EIn [] :: tz). auto.
        -- destruct Q5 as (? & ->). split; auto.
Qed.
Lemma recvExact_spec n s r s' t : recvExact G n s = Ret r s' t ->
  exists bs err, recvd 0 bs err s s' t /\ zlen bs <= Z.max 0 n /\ n <= zlen (x_buf (s_ctx s)) /\
    (if err : bool then r < 0 else r = zlen bs).
Proof.
  unfold recvExact. intro H. mgo H. apply recvExact_loop_spec in H; cbn [s_ctx]; try lia.
  destruct H as (bs & err & (Q1 & Q2 & Q3 & Q4 & Q5) & Q6 & Q7). exists bs, err. cbn [app s_ctx s_env env_times e_in] in *.
  repeat split; auto; try lia.
Qed.

Lemma recvExact_loop_safe fuel : forall off n total last s,
  0 <= off -> off + n <= zlen (x_buf (s_ctx s)) -> safe (recvExact_loop G fuel off n total last) s.
Proof.
  induction fuel as [|fuel IH]; intros off n total last s Ho Hb; cbn [recvExact_loop]; [safe1|].
  destruct (0 <? n) eqn:En; [|safe1].
  apply safe_bind; [apply recv_into_safe; lia|]. intros x s1 t1 H1.
  apply recv_into_inv in H1. destruct H1 as (_ & _ & _ & [(Hx & -> & (rv & Ee & _) & Ec)|(bs & Hx & Hn & -> & Ei & (rv & Ee & _) & Ec)]).
  - replace (x <? 0) with true by lia. apply safe_bind; [safe1|]. intros. safe1.
  - pose proof (zlen_nonneg bs). replace (x <? 0) with false by lia.
    assert (Hlen : zlen (x_buf (s_ctx s1)) = zlen (x_buf (s_ctx s))).
    { rewrite Ec. cbn [set_buf x_buf]. apply store_at_len; lia. }
    destruct (0 <? x) eqn:Ex; (apply safe_bind; [safe1|]); intros now s2 t2 H2; mgo H2.
    + apply safe_bind; [apply safe_massert; lia|]. intros u s3 t3 H3. mgo H3. apply IH; cbn [s_ctx]; lia.
    + destruct (g_poll G <=? _); [safe1|]. apply IH; cbn [s_ctx]; lia.
Qed.
Lemma recvExact_safe n s : n <= zlen (x_buf (s_ctx s)) -> safe (recvExact G n) s.
Proof.
  intro. unfold recvExact. apply safe_bind; [safe1|]. intros c s1 t1 H1. mgo H1.
  apply safe_bind; [apply safe_massert; lia|]. intros u s2 t2 H2. mgo H2.
  apply safe_bind; [safe1|]. intros now s3 t3 H3. mgo H3. apply safe_bind; [safe1|]. intros e s4 t4 H4. mgo H4.
  apply recvExact_loop_safe; cbn [s_ctx]; lia.
Qed.
End Recv.
