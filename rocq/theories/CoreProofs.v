(** Proof tools for the core model, and the send functions. *)
From Verif Require Import Base StateModel SerModel CoreModel CoreHarness.

(** ** Lists *)
Lemma zlen_nonneg {A} (l : list A) : 0 <= zlen l.
Proof. unfold zlen. lia. Qed.
Lemma zlen_app {A} (a b : list A) : zlen (a ++ b) = zlen a + zlen b.
Proof. unfold zlen. rewrite app_length. lia. Qed.
Lemma zlen_skipn {A} n (l : list A) : zlen (skipn n l) = Z.max 0 (zlen l - Z.of_nat n).
Proof. unfold zlen. rewrite skipn_length. lia. Qed.
Lemma zlen_firstn {A} n (l : list A) : zlen (firstn n l) = Z.min (Z.of_nat n) (zlen l).
Proof. unfold zlen. rewrite firstn_length. lia. Qed.
Lemma firstn_plus {A} (a b : nat) (l : list A) :
  firstn (a + b) l = firstn a l ++ firstn b (skipn a l).
Proof. revert l; induction a as [|a IH]; intros [|x l]; cbn; auto; [rewrite firstn_nil; auto|]. f_equal. apply IH. Qed.
Lemma firstn_le_app {A} n (a b : list A) : (n <= length a)%nat -> firstn n (a ++ b) = firstn n a.
Proof. intros. rewrite firstn_app. replace (n - length a)%nat with 0%nat by lia. cbn. apply app_nil_r. Qed.

Lemma outs_app a b : outs (a ++ b) = outs a ++ outs b.
Proof. apply flat_map_app. Qed.
Lemma ins_app a b : ins (a ++ b) = ins a ++ ins b.
Proof. apply flat_map_app. Qed.
Lemma errs_app a b : errs (a ++ b) = errs a || errs b.
Proof. apply existsb_app. Qed.
Lemma handled_app a b : handled (a ++ b) = handled a ++ handled b.
Proof. apply flat_map_app. Qed.
Lemma callbacks_app a b : callbacks (a ++ b) = callbacks a ++ callbacks b.
Proof. apply filter_app. Qed.
Lemma send_only_app a b : send_only (a ++ b) <-> send_only a /\ send_only b.
Proof. unfold send_only. rewrite forallb_app, andb_true_iff. tauto. Qed.
Lemma recv_only_app a b : recv_only (a ++ b) <-> recv_only a /\ recv_only b.
Proof. unfold recv_only. rewrite forallb_app, andb_true_iff. tauto. Qed.

(** ** The monad *)
Lemma bind_inv {A B} (m : Mo A) (f : A -> Mo B) s b s' t :
  bind m f s = Ret b s' t ->
  exists a s1 t1 t2, m s = Ret a s1 t1 /\ f a s1 = Ret b s' t2 /\ t = t1 ++ t2.
Proof.
  unfold bind. destruct (m s) as [a s1 t1| |]; try discriminate.
  destruct (f a s1) as [b2 s2 t2| |] eqn:E; try discriminate.
  intro H; inversion H; subst. exists a, s1, t1, t2. auto.
Qed.
Lemma ret_inv {A} (a : A) s b s' t : ret a s = Ret b s' t -> b = a /\ s' = s /\ t = [].
Proof. unfold ret. intro H; inversion H; auto. Qed.
Lemma lift_inv {A} (r : R A) s a s' t : lift r s = Ret a s' t -> r = Ok a /\ s' = s /\ t = [].
Proof. unfold lift. destruct r; intro H; inversion H; auto. Qed.
Lemma massert_inv b s a s' t : massert b s = Ret a s' t -> b = true /\ s' = s /\ t = [].
Proof. unfold massert, ret, undef. destruct b; intro H; inversion H; auto. Qed.
Lemma getc_inv s c s' t : getc s = Ret c s' t -> c = s_ctx s /\ s' = s /\ t = [].
Proof. unfold getc. intro H; inversion H; auto. Qed.
Lemma gete_inv s c s' t : gete s = Ret c s' t -> c = s_env s /\ s' = s /\ t = [].
Proof. unfold gete. intro H; inversion H; auto. Qed.
Lemma modc_inv f s a s' t : modc f s = Ret a s' t -> s' = mkSt (f (s_ctx s)) (s_env s) /\ t = [].
Proof. unfold modc. intro H; inversion H; auto. Qed.
Lemma emit_inv e s a s' t : emit e s = Ret a s' t -> s' = s /\ t = [e].
Proof. unfold emit. intro H; inversion H; auto. Qed.
Lemma stuck_inv {A} s (a : A) s' t : stuck s = Ret a s' t -> False.
Proof. unfold stuck. discriminate. Qed.
Lemma undef_inv {A} s (a : A) s' t : undef s = Ret a s' t -> False.
Proof. unfold undef. discriminate. Qed.
Lemma getTime_inv s a s' t : getTime s = Ret a s' t ->
  exists x r, e_times (s_env s) = x :: r /\ a = u32 x /\
    s' = mkSt (s_ctx s) (env_times (s_env s) r) /\ t = [].
Proof.
  unfold getTime. destruct (e_times (s_env s)) as [|x r]; intro H; inversion H; subst.
  exists x, r. auto.
Qed.
Lemma tsend_inv o s r s' t : tsend o s = Ret r s' t ->
  exists n rest, e_sends (s_env s) = n :: rest /\ s' = mkSt (s_ctx s) (env_sends (s_env s) rest) /\
    (n < 0 /\ r = n /\ t = [EOutErr] \/
     0 <= n /\ r = Z.min n (zlen o) /\ t = [EOut (firstn (Z.to_nat r) o)]).
Proof.
  unfold tsend. destruct (e_sends (s_env s)) as [|n rest]; [discriminate|].
  intro H; exists n, rest; destruct (n <? 0) eqn:E; inversion H; subst; repeat split; auto.
  - left; repeat split; auto; lia.
  - right; repeat split; auto; lia.
Qed.
Lemma trecv_inv n s a s' t : trecv n s = Ret a s' t ->
  exists x rest, e_recvs (s_env s) = x :: rest /\
    (x < 0 /\ a = (x, []) /\ t = [EInErr] /\ s' = mkSt (s_ctx s) (env_recv (s_env s) (e_in (s_env s)) rest) \/
     0 <= x /\ exists k, k = Z.to_nat (Z.min x n) /\
       a = (zlen (firstn k (e_in (s_env s))), firstn k (e_in (s_env s))) /\
       t = [EIn (firstn k (e_in (s_env s)))] /\
       s' = mkSt (s_ctx s) (env_recv (s_env s) (skipn k (e_in (s_env s))) rest)).
Proof.
  unfold trecv. destruct (e_recvs (s_env s)) as [|x rest]; [discriminate|].
  intro H; exists x, rest; destruct (x <? 0) eqn:E; inversion H; subst; split; auto.
  - left; repeat split; auto; lia.
  - right; split; [lia|]. eexists; repeat split; auto.
Qed.
Lemma on_recs_inv {A} (f : recs -> R (A * recs)) s a s' t : on_recs f s = Ret a s' t ->
  exists r, f (x_recs (s_ctx s)) = Ok (a, r) /\ s' = mkSt (set_recs (s_ctx s) r) (s_env s) /\ t = [].
Proof.
  unfold on_recs. destruct (f (x_recs (s_ctx s))) as [[a0 r0]|]; intro H; inversion H; subst.
  exists r0; auto.
Qed.

(** one step of decomposition of a hypothesis [m s = Ret ...] *)
Ltac mstep H :=
  match type of H with
  | bind _ _ _ = Ret _ _ _ =>
      let a := fresh "a" in let s1 := fresh "s" in let t1 := fresh "t" in let t2 := fresh "t" in
      let H1 := fresh "H" in let E := fresh "Et" in
      apply bind_inv in H; destruct H as (a & s1 & t1 & t2 & H1 & H & E); cbv beta iota in H;
      mstep H1
  | ret _ _ = Ret _ _ _ => let E1 := fresh in let E2 := fresh in let E3 := fresh in
      apply ret_inv in H; destruct H as (E1 & E2 & E3); subst
  | lift _ _ = Ret _ _ _ => let E1 := fresh "L" in let E2 := fresh in let E3 := fresh in
      apply lift_inv in H; destruct H as (E1 & E2 & E3); subst
  | massert _ _ = Ret _ _ _ => let E1 := fresh "As" in let E2 := fresh in let E3 := fresh in
      apply massert_inv in H; destruct H as (E1 & E2 & E3); subst
  | getc _ = Ret _ _ _ => let E1 := fresh in let E2 := fresh in let E3 := fresh in
      apply getc_inv in H; destruct H as (E1 & E2 & E3); subst
  | gete _ = Ret _ _ _ => let E1 := fresh in let E2 := fresh in let E3 := fresh in
      apply gete_inv in H; destruct H as (E1 & E2 & E3); subst
  | modc _ _ = Ret _ _ _ => let E2 := fresh in let E3 := fresh in
      apply modc_inv in H; destruct H as (E2 & E3); subst
  | emit _ _ = Ret _ _ _ => let E2 := fresh in let E3 := fresh in
      apply emit_inv in H; destruct H as (E2 & E3); subst
  | stuck _ = Ret _ _ _ => apply stuck_inv in H; destruct H
  | undef _ = Ret _ _ _ => apply undef_inv in H; destruct H
  | _ => idtac
  end.
Ltac msteps H := repeat (progress mstep H); try (cbv beta iota in H).

(** ** Sending *)

(** Only the scripts of send results and clock readings were consumed. *)
Definition env_sent (s s' : st) : Prop :=
  exists a b, s_env s' = env_sends (env_times (s_env s) a) b.
Lemma env_sent_refl s : env_sent s s.
Proof. exists (e_times (s_env s)), (e_sends (s_env s)). destruct s as [c [? ? ? ? ? ? ?]]; reflexivity. Qed.
Lemma env_sent_trans s1 s2 s3 : env_sent s1 s2 -> env_sent s2 s3 -> env_sent s1 s3.
Proof. intros (a & b & E) (a' & b' & E'). exists a', b'. rewrite E', E. reflexivity. Qed.

(** What a call that offers the bytes [bs] to the transport does: a prefix is taken;
    the result is its length, or negative after an error, which ends the call and
    breaks the connection. *)
Definition sent_ok (bs : list Z) (s : st) (r : Z) (s' : st) (t : list ev) : Prop :=
  exists (k : nat) (l : Z),
    (k <= length bs)%nat /\ outs t = firstn k bs /\ send_only t /\ env_sent s s' /\
    (k = 0%nat -> l = x_lastTx (s_ctx s)) /\
    (r = Z.of_nat k /\ errs t = false /\ s_ctx s' = set_lastTx (s_ctx s) l \/
     r < 0 /\ (k < length bs)%nat /\ (exists t0, t = t0 ++ [EOutErr] /\ errs t0 = false) /\
       s_ctx s' = transport_broke (set_lastTx (s_ctx s) l)).

Lemma set_lastTx_id c : set_lastTx c (x_lastTx c) = c.
Proof. destruct c; reflexivity. Qed.
Lemma set_lastTx_twice c a b : set_lastTx (set_lastTx c a) b = set_lastTx c b.
Proof. reflexivity. Qed.

Lemma advance_concat vs : forall n, 0 <= n <= zlen (concat vs) ->
  concat (advance vs n) = skipn (Z.to_nat n) (concat vs).
Proof.
  induction vs as [|v r IH]; intros n Hn; cbn [advance concat] in *.
  - now rewrite skipn_nil.
  - rewrite zlen_app in Hn. pose proof (zlen_nonneg v).
    destruct (zlen v <=? n) eqn:E.
    + rewrite IH by lia. rewrite skipn_app.
      rewrite (skipn_all2 v) by (unfold zlen in *; lia). cbn.
      f_equal. unfold zlen in *; lia.
    + destruct (0 <? n) eqn:E2; cbn [concat].
      * rewrite skipn_app. f_equal.
        replace (Z.to_nat n - length v)%nat with 0%nat by (unfold zlen in *; lia). reflexivity.
      * replace (Z.to_nat n) with 0%nat by lia. reflexivity.
Qed.
Lemma advance_neg vs n : n < 0 -> advance vs n = vs.
Proof.
  destruct vs as [|v r]; intros; cbn [advance]; auto. pose proof (zlen_nonneg v).
  replace (zlen v <=? n) with false by lia. replace (0 <? n) with false by lia. reflexivity.
Qed.

Section Send.
Variable G : cfg.

(** What happens after the transport answered, common to both send loops. *)
Definition after_send (bytesToSend sent sendResult : Z) : Mo Z :=
  (if 0 <? sendResult then
     massert (sendResult <=? bytesToSend - sent) ;;
     let* t := getTime in
     modc (fun c => set_lastTx c t) ;;
     ret (sent + sendResult)
   else if sendResult <? 0 then
     modc transport_broke ;; ret sendResult
   else ret sent).

Lemma after_send_inv bts sent sr s r s' t : after_send bts sent sr s = Ret r s' t ->
  t = [] /\
  (0 < sr /\ r = sent + sr /\ (exists x rest, e_times (s_env s) = x :: rest /\
      s' = mkSt (set_lastTx (s_ctx s) (u32 x)) (env_times (s_env s) rest)) \/
   sr < 0 /\ r = sr /\ s' = mkSt (transport_broke (s_ctx s)) (s_env s) \/
   sr = 0 /\ r = sent /\ s' = s).
Proof.
  unfold after_send. destruct (0 <? sr) eqn:E1; [|destruct (sr <? 0) eqn:E2]; intro H; msteps H; cbn [app] in *.
  - match goal with HT : getTime _ = _ |- _ => apply getTime_inv in HT; destruct HT as (x & rest & ? & ? & ? & ?) end.
    subst. cbn. split; auto. left. split; [lia|]. split; auto. exists x, rest. auto.
  - split; auto. right; left. repeat split; auto; lia.
  - split; auto. right; right. repeat split; auto; lia.
Qed.

Lemma sendb_loop_spec fuel : forall rest bts start sent s r s' t,
  0 <= sent -> sent + zlen rest = bts ->
  sendb_loop G fuel rest bts start sent s = Ret r s' t ->
  exists r', r = (if 0 <=? r' then sent + r' else r') /\ sent_ok rest s r' s' t.
Proof.
  induction fuel as [|fuel IH]; intros rest bts start sent s r s' t Hs Hb H; [now msteps H|].
  cbn [sendb_loop] in H. fold (after_send bts sent) in H.
  destruct ((sent <? bts) && (0 <=? sent)) eqn:Ec.
  - apply bind_inv in H; destruct H as (sr & s1 & t1 & t2 & H1 & H & Et).
    apply bind_inv in H; destruct H as (sent' & s2 & t3 & t4 & H2 & H & Et').
    apply bind_inv in H; destruct H as (now & s3 & t5 & t6 & H3 & H & Et'').
    apply getTime_inv in H3. destruct H3 as (x & tr & E3 & -> & -> & ->).
    apply after_send_inv in H2. destruct H2 as (-> & H2).
    apply tsend_inv in H1. destruct H1 as (n & sr' & E1 & -> & H1). cbn [s_ctx s_env] in *.
    subst t2 t4 t. cbn [app] in *.
    destruct H1 as [(Hn & -> & ->)|(Hn & -> & ->)].
    + (* error *)
      destruct H2 as [?|[(_ & -> & ->)|?]]; [lia| |lia]. cbn [s_ctx s_env] in *.
      assert (Hend : r = n /\ t6 = [] /\ s' = mkSt (transport_broke (s_ctx s)) (env_times (env_sends (s_env s) sr') tr)).
      { destruct (g_sendto G <=? elapsed (u32 x) start); [msteps H; auto|].
        destruct fuel; cbn [sendb_loop] in H; [msteps H|].
        replace ((n <? bts) && (0 <=? n)) with false in H by lia. msteps H; auto. }
      destruct Hend as (-> & -> & ->).
      exists n. replace (0 <=? n) with false by lia. split; auto.
      exists 0%nat, (x_lastTx (s_ctx s)). repeat split; auto; try lia.
      { exists tr, sr'. reflexivity. }
      right. split; [lia|]. split; [unfold zlen in *; lia|]. split; [exists []; auto|]. now rewrite set_lastTx_id.
    + set (k := Z.min n (zlen rest)) in *.
      pose proof (zlen_nonneg rest).
      assert (Hk : 0 <= k <= zlen rest) by lia.
      destruct (Z.eq_dec k 0) as [Hk0|Hk0].
      * destruct H2 as [?|[?|(_ & -> & ->)]]; [lia|lia|]. rewrite Hk0 in *. cbn [Z.to_nat firstn skipn] in *.
        cbn [s_ctx s_env] in *.
        destruct (g_sendto G <=? elapsed (u32 x) start).
        { msteps H. exists 0. cbn. split; [lia|]. exists 0%nat, (x_lastTx (s_ctx s)).
          repeat split; auto; try lia. { exists tr, sr'. reflexivity. }
          left. repeat split; auto. cbn. now rewrite set_lastTx_id. }
        { apply IH in H; auto. destruct H as (r' & -> & k' & l & Q1 & Q2 & Q3 & Q4 & Q5 & Q6).
          exists r'. split; auto. exists k', l. cbn [s_ctx s_env] in *. repeat split; auto.
          - destruct Q6 as [(?&?&?)|(?&?&(t0 & -> & ?)&?)]; [left; repeat split; auto|right].
            repeat split; auto. exists (EOut [] :: t0). auto. }
      * destruct H2 as [(_ & -> & y & yr & Ey & ->)|[?|?]]; [|lia|lia]. cbn [s_ctx s_env] in *.
        destruct (g_sendto G <=? elapsed (u32 x) start).
        { msteps H. exists k. replace (0 <=? k) with true by lia. split; auto.
          exists (Z.to_nat k), (u32 y). repeat split; auto; try lia.
          - unfold zlen in *; lia.
          - cbn. now rewrite app_nil_r.
          - exists tr, sr'. reflexivity.
          - left. repeat split; auto. lia. }
        { apply IH in H; [|lia|rewrite zlen_skipn; lia].
          destruct H as (r' & -> & k' & l & Q1 & Q2 & Q3 & Q4 & Q5 & Q6). cbn [s_ctx s_env] in *.
          rewrite skipn_length in Q1.
          exists (if 0 <=? r' then k + r' else r'). split.
          { destruct (0 <=? r') eqn:Er; [|now rewrite Er]. replace (0 <=? k + r') with true by lia. lia. }
          exists (Z.to_nat k + k')%nat, l. repeat split; auto.
          - unfold zlen in *; lia.
          - change (firstn (Z.to_nat k) rest ++ outs t6 = firstn (Z.to_nat k + k') rest). rewrite Q2. now rewrite firstn_plus.
          - lia.
          - destruct Q6 as [(?&?&?)|(?&HL&(t0 & -> & ?)&?)]; [left|right]; try rewrite skipn_length in HL.
            + replace (0 <=? r') with true by lia. repeat split; auto. lia.
            + replace (0 <=? r') with false by lia. repeat split; auto; [unfold zlen in *; lia|].
              eexists (_ :: t0). split; [reflexivity|]. auto. }
  - msteps H. exists 0. cbn. split; [lia|]. exists 0%nat, (x_lastTx (s_ctx s)).
    repeat split; auto; try lia. { apply env_sent_refl. }
    left. repeat split; auto. now rewrite set_lastTx_id.
Qed.

(** The same for vectors: [concat vs] is what is on offer. *)
Lemma sendv_loop_spec fuel : forall vs bts start sent s r s' t,
  0 <= sent -> sent + zlen (concat vs) = bts ->
  sendv_loop G fuel vs bts start sent s = Ret r s' t ->
  exists r', r = (if 0 <=? r' then sent + r' else r') /\ sent_ok (concat vs) s r' s' t.
Proof.
  induction fuel as [|fuel IH]; intros vs bts start sent s r s' t Hs Hb H; [now msteps H|].
  cbn [sendv_loop] in H. fold (after_send bts sent) in H.
  destruct ((sent <? bts) && (0 <=? sent)) eqn:Ec.
  - apply bind_inv in H; destruct H as (sr & s1 & t1 & t2 & H1 & H & Et).
    apply bind_inv in H; destruct H as (sent' & s2 & t3 & t4 & H2 & H & Et').
    apply bind_inv in H; destruct H as (now & s3 & t5 & t6 & H3 & H & Et'').
    apply getTime_inv in H3. destruct H3 as (x & tr & E3 & -> & -> & ->).
    apply after_send_inv in H2. destruct H2 as (-> & H2).
    assert (Hoff : exists o, tsend o s = Ret sr s1 t1 /\ (exists w, concat vs = o ++ w)).
    { destruct vs as [|v vs']; [now msteps H1|]. destruct (g_writev G).
      - eexists; split; [exact H1|]. exists []. now rewrite app_nil_r.
      - exists v; split; [exact H1|]. exists (concat vs'). reflexivity. }
    destruct Hoff as (o & Ho & w & Hw).
    apply tsend_inv in Ho. destruct Ho as (n & sr' & E1 & -> & Ho). cbn [s_ctx s_env] in *.
    subst t2 t4 t. cbn [app] in *.
    destruct Ho as [(Hn & -> & ->)|(Hn & -> & ->)].
    + destruct H2 as [?|[(_ & -> & ->)|?]]; [lia| |lia]. cbn [s_ctx s_env] in *.
      assert (Hend : r = n /\ t6 = [] /\ s' = mkSt (transport_broke (s_ctx s)) (env_times (env_sends (s_env s) sr') tr)).
      { destruct (g_sendto G <? elapsed (u32 x) start); [msteps H; auto|].
        destruct fuel; cbn [sendv_loop] in H; [msteps H|].
        replace ((n <? bts) && (0 <=? n)) with false in H by lia. msteps H; auto. }
      destruct Hend as (-> & -> & ->).
      exists n. replace (0 <=? n) with false by lia. split; auto.
      exists 0%nat, (x_lastTx (s_ctx s)). repeat split; auto; try lia.
      { exists tr, sr'. reflexivity. }
      right. split; [lia|]. split; [unfold zlen in *; lia|]. split; [exists []; auto|]. now rewrite set_lastTx_id.
    + set (k := Z.min n (zlen o)) in *.
      pose proof (zlen_nonneg o).
      assert (Hk : 0 <= k <= zlen (concat vs)).
      { rewrite Hw, zlen_app. pose proof (zlen_nonneg w). lia. }
      assert (Hf : firstn (Z.to_nat k) o = firstn (Z.to_nat k) (concat vs)).
      { rewrite Hw, firstn_le_app; auto. unfold zlen in *; lia. }
      rewrite Hf in *.
      destruct (Z.eq_dec k 0) as [Hk0|Hk0].
      * destruct H2 as [?|[?|(_ & -> & ->)]]; [lia|lia|]. rewrite Hk0 in *. cbn [Z.to_nat firstn skipn] in *.
        cbn [s_ctx s_env] in *.
        destruct (g_sendto G <? elapsed (u32 x) start).
        { msteps H. exists 0. cbn. split; [lia|]. exists 0%nat, (x_lastTx (s_ctx s)).
          repeat split; auto; try lia. { exists tr, sr'. reflexivity. }
          left. repeat split; auto. cbn. now rewrite set_lastTx_id. }
        { apply IH in H; auto; [|rewrite advance_concat by lia; auto].
          rewrite advance_concat in H by lia. cbn [Z.to_nat skipn] in H.
          destruct H as (r' & -> & k' & l & Q1 & Q2 & Q3 & Q4 & Q5 & Q6).
          exists r'. split; auto. exists k', l. cbn [s_ctx s_env] in *. repeat split; auto.
          - destruct Q6 as [(?&?&?)|(?&?&(t0 & -> & ?)&?)]; [left; repeat split; auto|right].
            repeat split; auto. exists (EOut [] :: t0). auto. }
      * destruct H2 as [(_ & -> & y & yr & Ey & ->)|[?|?]]; [|lia|lia]. cbn [s_ctx s_env] in *.
        destruct (g_sendto G <? elapsed (u32 x) start).
        { msteps H. exists k. replace (0 <=? k) with true by lia. split; auto.
          exists (Z.to_nat k), (u32 y). repeat split; auto; try lia.
          - unfold zlen in *; lia.
          - cbn. now rewrite app_nil_r.
          - exists tr, sr'. reflexivity.
          - left. repeat split; auto. lia. }
        { apply IH in H; [|lia|rewrite advance_concat, zlen_skipn by lia; lia].
          rewrite advance_concat in H by lia.
          destruct H as (r' & -> & k' & l & Q1 & Q2 & Q3 & Q4 & Q5 & Q6). cbn [s_ctx s_env] in *.
          rewrite skipn_length in Q1.
          exists (if 0 <=? r' then k + r' else r'). split.
          { destruct (0 <=? r') eqn:Er; [|now rewrite Er]. replace (0 <=? k + r') with true by lia. lia. }
          exists (Z.to_nat k + k')%nat, l. repeat split; auto.
          - unfold zlen in *; lia.
          - change (firstn (Z.to_nat k) (concat vs) ++ outs t6 = firstn (Z.to_nat k + k') (concat vs)). rewrite Q2. now rewrite firstn_plus.
          - lia.
          - destruct Q6 as [(?&?&?)|(?&HL&(t0 & -> & ?)&?)]; [left|right]; try rewrite skipn_length in HL.
            + replace (0 <=? r') with true by lia. repeat split; auto. lia.
            + replace (0 <=? r') with false by lia. repeat split; auto; [unfold zlen in *; lia|].
              eexists (_ :: t0). split; [reflexivity|]. auto. }
  - msteps H. exists 0. cbn. split; [lia|]. exists 0%nat, (x_lastTx (s_ctx s)).
    repeat split; auto; try lia. { apply env_sent_refl. }
    left. repeat split; auto. now rewrite set_lastTx_id.
Qed.

Lemma sent_ok_env bs s s0 r s' t : sent_ok bs s0 r s' t -> s_ctx s0 = s_ctx s -> env_sent s s0 ->
  sent_ok bs s r s' t.
Proof.
  intros (k & l & Q1 & Q2 & Q3 & Q4 & Q5 & Q6) E1 E2. exists k, l. rewrite E1 in *.
  repeat split; auto. eapply env_sent_trans; eauto.
Qed.
Lemma sendBuffer_spec bs s r s' t : sendBuffer G bs s = Ret r s' t -> sent_ok bs s r s' t.
Proof.
  unfold sendBuffer. intro H. msteps H.
  match goal with HT : getTime _ = _ |- _ => apply getTime_inv in HT; destruct HT as (x & rest & ? & ? & ? & ?) end.
  subst. apply sendb_loop_spec in H; [|lia|lia]. destruct H as (r' & -> & H).
  replace (if 0 <=? r' then 0 + r' else r') with r' by (destruct (0 <=? r'); lia).
  cbn [app]. eapply sent_ok_env; eauto. exists rest, (e_sends (s_env s)). destruct (s_env s); reflexivity.
Qed.
Lemma sendMessageVector_spec vs s r s' t : sendMessageVector G vs s = Ret r s' t ->
  sent_ok (concat vs) s r s' t.
Proof.
  unfold sendMessageVector. intro H. msteps H.
  match goal with HT : getTime _ = _ |- _ => apply getTime_inv in HT; destruct HT as (x & rest & ? & ? & ? & ?) end.
  subst. apply sendv_loop_spec in H; [|lia|lia]. destruct H as (r' & -> & H).
  replace (if 0 <=? r' then 0 + r' else r') with r' by (destruct (0 <=? r'); lia).
  cbn [app]. eapply sent_ok_env; eauto. exists rest, (e_sends (s_env s)). destruct (s_env s); reflexivity.
Qed.
End Send.
